(** Derivatives over the real numbers (C36-C38). *)
From Coq Require Import Reals ZArith String Bool Arith Lia Lra List.
From Verif Require Import Base Num RVec Geometry Grid LLModel PropModel Spec_LL LL_state LL_R MU Spec_MU MU_thm MU_thm2 MU_thm3.
Import ListNotations.
Local Open Scope string_scope.
Local Open Scope R_scope.

Lemma entry_dgetd d k : entry d k = dgetd d k (n0 : R).
Proof. unfold entry, dgetd. destruct (dget d k); rnum; reflexivity. Qed.
Lemma half : ndec 5 1 = / 2 :> R.
Proof. rnum. unfold Rdec. cbn. field. Qed.
Lemma dpa_pressure a r : dpa a r = dynamic_pressure a * r_Sw r.
Proof.
  unfold dpa, dynamic_pressure, dgetd. rewrite half. destruct (dget a "rho"), (dget a "V_mag"); rnum; unfold Rdec; cbn; field.
Qed.

Lemma nine_central (d : dict R) suffix (scale : R -> R) (r : refs R) f b q h :
  (forall x len, scale x / len = x / (2 * h * q * len)) -> (forall x, scale x = x / (2 * h * q)) ->
  (forall name, In name (map fst (coefficients 0 0)) ->
     dget d (name ++ suffix) = dget (nine "" scale r f b) name) ->
  central_differences d suffix (r_lat r) (r_long r) q h f b.
Proof.
  intros S1 S2 K name g len Hin.
  assert (Hn : In name (map fst (coefficients 0 0))).
  { revert Hin. unfold coefficients. cbn. intuition congruence. }
  rewrite (K name Hn). clear K Hn. revert Hin. unfold coefficients, nine. cbn [In].
  intros [K|[K|[K|[K|[K|[K|[K|[K|[K|[]]]]]]]]]]; injection K as <- <- <-;
    cbn [append dget String.eqb Ascii.eqb Bool.eqb]; rnum; f_equal; rewrite ?S1, ?S2; rewrite ?Rmult_1_r; reflexivity.
Qed.

Ltac names := intros name Hin; cbn in Hin;
  destruct Hin as [<-|[<-|[<-|[<-|[<-|[<-|[<-|[<-|[<-|[]]]]]]]]]]; reflexivity.

Lemma scale_angle x h q : x / 2 / h / q = x / (2 * h * q).
Proof. unfold Rdiv. rewrite !Rinv_mult. ring. Qed.
Lemma scale_angle_len x h q len : x / 2 / h / q / len = x / (2 * h * q * len).
Proof. unfold Rdiv. rewrite !Rinv_mult. ring. Qed.

Section S.
  Context {S : Type}.
  Variable H : host R S.
  Hypothesis keeps : forall a c s r a' s', h_solve H a c s = (r, a', s') ->
    an a' = an a /\ (als a <> None -> als a' <> None).

  Definition stab_post (w : world R S) (a : aero_state R) d w' : Prop :=
    exists r k1 k2 k3 k4 b1 f1 b2 f2 a',
      let alpha := entry (an a) "alpha" in let beta := entry (an a) "beta" in
      let restored := dset (an a) "alpha" alpha in let q := dynamic_pressure (an a) * r_Sw r in
      h_refs H = Some r /\
      w' = MkW (Some a') (w_ctl w) (w_model w') (w_files w) (w_log w ++ [k1; k2; k3; k4]) /\
      performed H (w_model w) [k1; k2; k3; k4] (w_model w') /\
      solved_at k1 (dset (an a) "alpha" (alpha - 1 / 2)) (w_ctl w) b1 /\
      solved_at k2 (dset (an a) "alpha" (alpha + 1 / 2)) (w_ctl w) f1 /\
      solved_at k3 (dset restored "beta" (beta - 1 / 2)) (w_ctl w) b2 /\
      solved_at k4 (dset restored "beta" (beta + 1 / 2)) (w_ctl w) f2 /\
      central_differences d "_a" (r_lat r) (r_long r) q (degrees (1 / 2)) f1 b1 /\
      central_differences d "_b" (r_lat r) (r_long r) q (degrees (1 / 2)) f2 b2 /\
      an a' = dset restored "beta" beta.

  Lemma half' : @ndec R _ 5 1 = 1 / 2.
  Proof. rewrite half. lra. Qed.

  Lemma stability_given w a d w' : w_aero w = Some a -> given a ->
    stability_derivatives H w = (Ok d, w') -> stab_post w a d w'.
  Proof.
    intros Ea Ha K. pose proof (honest_stability H w) as Hh. rewrite K in Hh. cbn [snd] in Hh.
    unfold stability_derivatives in K. rewrite (aero_given_some w a Ea Ha) in K.
    destruct (stability_ok H keeps _ _ _ _ K Ea) as (r & c1 & c2 & c3 & c4 & b1 & f1 & b2 & f2 & a' & Er & Ew & A1 & A2 & A3 & A4 & A5 & A6 & A7 & A8).
    cbv zeta in A1, A2, A3, A4, A5, A6, A7, A8.
    rewrite <- !entry_dgetd, half' in *.
    destruct Hh as (l & L1 & L2). rewrite Ew in L1 at 1. cbn in L1. apply app_inv_head in L1. subst l.
    exists r, c1, c2, c3, c4, b1, f1, b2, f2, a'. cbv zeta. cbn [map repeat] in A5, A6.
    injection A5 as B1 B2 B3 B4. injection A6 as D1 D2 D3 D4.
    split; [exact Er|]. split; [exact Ew|]. split; [exact L2|].
    unfold solved_at. repeat (split; [solve [auto]|]). split; [|split; [|exact A7]].
    - subst d. eapply (nine_central _ _ (fun x => x / 2 / degrees (1 / 2) / (dynamic_pressure (an a) * r_Sw r))).
      + intros. apply scale_angle_len.
      + intros. apply scale_angle.
      + rewrite dpa_pressure. names.
    - subst d. eapply (nine_central _ _ (fun x => x / 2 / degrees (1 / 2) / (dynamic_pressure (an a) * r_Sw r))).
      + intros. apply scale_angle_len.
      + intros. apply scale_angle.
      + rewrite dpa_pressure. names.
  Qed.

  Definition damp_post (w : world R S) (a : aero_state R) d w' : Prop :=
    exists r k1 k2 k3 k4 k5 k6 b1 f1 b2 f2 b3 f3 a',
      let V := match dget (an a) "V_mag" with Some x => x | None => 10 end in
      let p := entry (an a) "roll_rate" in let q := entry (an a) "pitch_rate" in let y := entry (an a) "yaw_rate" in
      (* rates whose non-dimensional value is 0.005 *)
      let dlat := / 200 * (2 * V / r_lat r) in let dlong := / 200 * (2 * V / r_long r) in
      let e1 := dset (an a) "roll_rate" p in let e2 := dset e1 "pitch_rate" q in
      let qS := dynamic_pressure (an a) * r_Sw r in
      h_refs H = Some r /\
      w' = MkW (Some a') (w_ctl w) (w_model w') (w_files w) (w_log w ++ [k1; k2; k3; k4; k5; k6]) /\
      performed H (w_model w) [k1; k2; k3; k4; k5; k6] (w_model w') /\
      solved_at k1 (dset (an a) "roll_rate" (p - dlat)) (w_ctl w) b1 /\
      solved_at k2 (dset (an a) "roll_rate" (p + dlat)) (w_ctl w) f1 /\
      solved_at k3 (dset e1 "pitch_rate" (q - dlong)) (w_ctl w) b2 /\
      solved_at k4 (dset e1 "pitch_rate" (q + dlong)) (w_ctl w) f2 /\
      solved_at k5 (dset e2 "yaw_rate" (y - dlat)) (w_ctl w) b3 /\
      solved_at k6 (dset e2 "yaw_rate" (y + dlat)) (w_ctl w) f3 /\
      central_differences d "_pbar" (r_lat r) (r_long r) qS (/ 200) f1 b1 /\
      central_differences d "_qbar" (r_lat r) (r_long r) qS (/ 200) f2 b2 /\
      central_differences d "_rbar" (r_lat r) (r_long r) qS (/ 200) f3 b3 /\
      an a' = dset e2 "yaw_rate" q.

  Lemma five_milli : @ndec R _ 5 3 = / 200.
  Proof. rnum. unfold Rdec. cbn. field. Qed.

  Lemma damping_given w a d w' : w_aero w = Some a -> given a ->
    damping_derivatives H w = (Ok d, w') -> damp_post w a d w'.
  Proof.
    intros Ea Ha K. pose proof (honest_damping H w) as Hh. rewrite K in Hh. cbn [snd] in Hh.
    unfold damping_derivatives in K. rewrite (aero_given_some w a Ea Ha) in K.
    destruct (damping_ok H keeps _ _ _ _ K Ea) as (r & c1 & c2 & c3 & c4 & c5 & c6 & b1 & f1 & b2 & f2 & b3 & f3 & a' & Er & Ew & A1 & A2 & A3 & A4 & A5 & A6 & A7 & A8 & A9 & A10).
    cbv zeta in A1, A2, A3, A4, A5, A6, A7, A8, A9, A10.
    rewrite <- !entry_dgetd in *.
    assert (EV : dgetd (an a) "V_mag" (nint 10) = match dget (an a) "V_mag" with Some x => x | None => 10 end).
    { unfold dgetd. destruct (dget (an a) "V_mag"); reflexivity. }
    rewrite EV in *. set (V := match dget (an a) "V_mag" with Some x => x | None => 10 end) in *.
    assert (Es : forall l, ndiv (nmul (nmul (ndec 5 3) n2) V) l = / 200 * (2 * V / l)).
    { intros l. rewrite five_milli. rnum. unfold Rdiv. ring. }
    rewrite !Es in *.
    assert (Eq : nmul (nmul (nmul (nmul (ndec 5 1) (dgetd (an a) "rho" (ndec 23769 7))) V) V) (r_Sw r) = dynamic_pressure (an a) * r_Sw r).
    { rewrite <- dpa_pressure. unfold dpa. rewrite EV. rnum. ring. }
    rewrite Eq in *.
    destruct Hh as (l & L1 & L2). rewrite Ew in L1 at 1. cbn in L1. apply app_inv_head in L1. subst l.
    exists r, c1, c2, c3, c4, c5, c6, b1, f1, b2, f2, b3, f3, a'. cbv zeta. fold V. cbn [map repeat] in A7, A8.
    injection A7 as B1 B2 B3 B4 B5 B6. injection A8 as D1 D2 D3 D4 D5 D6.
    split; [exact Er|]. split; [exact Ew|]. split; [exact L2|].
    unfold solved_at. do 6 (split; [solve [auto]|]).
    assert (Es1 : forall (q x : R), ndiv x (nmul (nmul n2 (ndec 5 3)) q) = x / (2 * / 200 * q)).
    { intros q x. rewrite five_milli. rnum. reflexivity. }
    split; [|split; [|split; [|exact A9]]];
    subst d; (eapply (nine_central _ _ (fun x => ndiv x (nmul (nmul n2 (ndec 5 3)) (dynamic_pressure (an a) * r_Sw r))));
      [intros; rewrite Es1; unfold Rdiv; rewrite !Rinv_mult; ring | intros; apply Es1 | names]).
  Qed.

  Definition ctl_post (w : world R S) (a : aero_state R) (c : dict R) d w' : Prop :=
    exists r k1 k2 k3 k4 k5 k6 k7 k8 b1 f1 b2 f2 b3 f3 b4 f4 a',
      let x0 := entry c "aileron" in let x1 := entry c "elevator" in
      let x2 := entry c "rudder" in let x3 := entry c "flap" in
      let c1 := dset c "aileron" x0 in let c2 := dset c1 "elevator" x1 in
      let c3 := dset c2 "rudder" x2 in let c4 := dset c3 "flap" x3 in
      let q := dynamic_pressure (an a) * r_Sw r in
      let calls := [k1; k2; k3; k4; k5; k6; k7; k8] in
      h_refs H = Some r /\
      w' = MkW (Some a') (Some c4) (w_model w') (w_files w) (w_log w ++ calls) /\
      performed H (w_model w) calls (w_model w') /\
      map (@k_c R S) calls = map Some
        [dset c "aileron" (x0 - 1 / 4); dset c "aileron" (x0 + 1 / 4);
         dset c1 "elevator" (x1 - 1 / 4); dset c1 "elevator" (x1 + 1 / 4);
         dset c2 "rudder" (x2 - 1 / 4); dset c2 "rudder" (x2 + 1 / 4);
         dset c3 "flap" (x3 - 1 / 4); dset c3 "flap" (x3 + 1 / 4)] /\
      map (@k_r R S) calls = map Ok [b1; f1; b2; f2; b3; f3; b4; f4] /\
      (given a -> Forall (fun k => an (k_a k) = an a) calls) /\
      (~ given a -> Forall (fun k => k_a k = default_aero) calls) /\
      central_differences d "_da" (r_lat r) (r_long r) q (degrees (1 / 4)) f1 b1 /\
      central_differences d "_de" (r_lat r) (r_long r) q (degrees (1 / 4)) f2 b2 /\
      central_differences d "_dr" (r_lat r) (r_long r) q (degrees (1 / 4)) f3 b3 /\
      central_differences d "_df" (r_lat r) (r_long r) q (degrees (1 / 4)) f4 b4 /\
      an a' = an a.

  Lemma quarter : @ctl_step R _ = 1 / 4.
  Proof. unfold ctl_step. rnum. unfold Rdec. cbn. field. Qed.

  Lemma control_body_given w a c d w' : w_aero w = Some a -> w_ctl w = Some c ->
    control_body H w = (Ok d, w') ->
    (exists l, w_log w' = (w_log w ++ l)%list /\ performed H (w_model w) l (w_model w')) ->
    ctl_post w a c d w'.
  Proof.
    intros Ea Ec K Hh.
    destruct (control_ok H keeps _ _ _ _ _ K Ea Ec) as (r & k1 & k2 & k3 & k4 & k5 & k6 & k7 & k8 & b1 & f1 & b2 & f2 & b3 & f3 & b4 & f4 & a' & Er & Ew & A1 & A2 & A3 & A4 & A5).
    cbv zeta in Ew, A1, A2, A3, A4, A5.
    rewrite <- !entry_dgetd, quarter in *.
    destruct Hh as (l & L1 & L2). rewrite Ew in L1 at 1. cbn in L1. apply app_inv_head in L1. subst l.
    exists r, k1, k2, k3, k4, k5, k6, k7, k8, b1, f1, b2, f2, b3, f3, b4, f4, a'. cbv zeta.
    split; [exact Er|]. split; [exact Ew|]. split; [exact L2|]. split; [exact A1|]. split; [exact A2|].
    split. { intros G. revert A3. apply Forall_impl. intros k [[_ B]|[B _]]; tauto. }
    split. { intros G. revert A3. apply Forall_impl. intros k [[B _]|[_ B]]; tauto. }
    split; [|split; [|split; [|split; [|exact A4]]]];
    subst d; (eapply (nine_central _ _ (fun x => x / 2 / degrees (1 / 4) / (dynamic_pressure (an a) * r_Sw r)));
      [intros; apply scale_angle_len | intros; apply scale_angle | rewrite dpa_pressure; names]).
  Qed.
  Lemma control_given w a c d w' : w_aero w = Some a -> w_ctl w = Some c -> c <> [] ->
    control_derivatives H w = (Ok d, w') -> ctl_post w a c d w'.
  Proof.
    intros Ea Ec Hc K. pose proof (honest_control H w) as Hh. rewrite K in Hh. cbn [snd] in Hh.
    unfold control_derivatives in K. assert (G : ctl_given w = true).
    { unfold ctl_given. rewrite Ec. cbn. destruct c; [congruence|reflexivity]. }
    rewrite G in K. now apply control_body_given.
  Qed.

  (** omitted dictionaries *)
  Lemma stability_omitted w : aero_given w = false ->
    stability_derivatives H w = (fst (stability_derivatives H (put_aero (Some default_aero) w)),
                                 put_aero (w_aero w) (snd (stability_derivatives H (put_aero (Some default_aero) w)))).
  Proof.
    intros G. unfold stability_derivatives. rewrite G. change (aero_given (put_aero (Some default_aero) w)) with true. cbv iota.
    unfold with_aero. destruct (stability_body H (put_aero (Some default_aero) w)). reflexivity.
  Qed.
  Lemma damping_omitted w : aero_given w = false ->
    damping_derivatives H w = (fst (damping_derivatives H (put_aero (Some default_aero_2) w)),
                               put_aero (w_aero w) (snd (damping_derivatives H (put_aero (Some default_aero_2) w)))).
  Proof.
    intros G. unfold damping_derivatives. rewrite G. change (aero_given (put_aero (Some default_aero_2) w)) with true. cbv iota.
    unfold with_aero. destruct (damping_body H (put_aero (Some default_aero_2) w)). reflexivity.
  Qed.
  Lemma control_omitted w : ctl_given w = false ->
    control_derivatives H w = (fst (control_derivatives H (put_ctl (Some default_ctl) w)),
                               put_ctl (w_ctl w) (snd (control_derivatives H (put_ctl (Some default_ctl) w)))).
  Proof.
    intros G. unfold control_derivatives. rewrite G. change (ctl_given (put_ctl (Some default_ctl) w)) with true. cbv iota.
    unfold with_ctl. destruct (control_body H (put_ctl (Some default_ctl) w)). reflexivity.
  Qed.
  Lemma control_no_aero w : w_aero w = None -> control_derivatives H w = (Err AttributeError, w).
  Proof.
    intros Ea. assert (G : forall w : world R S, w_aero w = None -> control_body H w = (Err AttributeError, w)).
    { intros v Ev. unfold control_body, dynamic_pressure_area, get_aero, sbind. now rewrite Ev. }
    unfold control_derivatives, with_ctl. destruct (ctl_given w); [now apply G|].
    rewrite (G (put_ctl (Some default_ctl) w)) by exact Ea. now destruct w.
  Qed.
End S.
