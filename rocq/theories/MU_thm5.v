(** Derivatives of airplanes without propellers, derivatives(), failing solves (C36-C40). *)
From Coq Require Import Reals ZArith String Bool Arith Lia Lra List.
From Verif Require Import Base Num RVec Geometry Grid LLModel PropModel Spec_LL LL_state LL_R MU Spec_MU MU_thm MU_thm2 MU_thm3 MU_thm4.
Import ListNotations.
Local Open Scope string_scope.
Local Open Scope R_scope.

Lemma dset_nil {A} (d : dict A) k x : dset d k x <> [].
Proof. intros K. pose proof (dset_truthy d k x) as L. now rewrite K in L. Qed.
Lemma plain_eta {T} (a : aero_state T) : als a = None -> a = numbers (an a).
Proof. destruct a. cbn. now intros ->. Qed.

Section W.
  Variable E : menv R.
  Variable X : machup R.
  Variable ps : option (dict (pval R)).
  Notation H := (host_of E X ps).
  Hypothesis no_props : mm_props X = [].

  Lemma wsame a c s r a' s' : h_solve H a c s = (r, a', s') -> a' = a.
  Proof. apply host_plain. now right. Qed.

  Lemma solved_forces h l s' k d c f :
    performed H (mu_after E X h) l s' -> Forall (fun k => als (k_a k) = None) l -> In k l ->
    solved_at k d (Some c) f -> d <> [] -> c <> [] ->
    forces E X ps (numbers d) (Some c) = Ok f.
  Proof.
    intros Hp Hl Hin (A1 & A2 & A3) Hd Hc.
    pose proof (performed_forces E X ps _ _ _ no_props Hp) as K. rewrite Forall_forall in K, Hl.
    specialize (K k Hin). specialize (Hl k Hin). rewrite A2, A3 in K.
    rewrite (plain_eta _ Hl), A1 in K. symmetry. apply K; [now left|]. exists c. auto.
  Qed.

  Lemma stability_wings w a c h d w' :
    w_aero w = Some a -> given a -> als a = None -> w_ctl w = Some c -> c <> [] -> w_model w = mu_after E X h ->
    stability_derivatives H w = (Ok d, w') ->
    exists r b1 f1 b2 f2,
      let alpha := entry (an a) "alpha" in let beta := entry (an a) "beta" in
      let restored := dset (an a) "alpha" alpha in let q := dynamic_pressure (an a) * r_Sw r in
      mm_refs X = Some r /\
      forces E X ps (numbers (dset (an a) "alpha" (alpha - 1 / 2))) (Some c) = Ok b1 /\
      forces E X ps (numbers (dset (an a) "alpha" (alpha + 1 / 2))) (Some c) = Ok f1 /\
      forces E X ps (numbers (dset restored "beta" (beta - 1 / 2))) (Some c) = Ok b2 /\
      forces E X ps (numbers (dset restored "beta" (beta + 1 / 2))) (Some c) = Ok f2 /\
      central_differences d "_a" (r_lat r) (r_long r) q (degrees (1 / 2)) f1 b1 /\
      central_differences d "_b" (r_lat r) (r_long r) q (degrees (1 / 2)) f2 b2.
  Proof.
    intros Ea Ha Hp Ec Hc Eh K.
    destruct (plain_stability H wsame w) as [_ P]. { intros a0 K0. rewrite Ea in K0. now injection K0 as <-. }
    destruct (stability_given H (host_keeps E X ps) _ _ _ _ Ea Ha K)
      as (r & k1 & k2 & k3 & k4 & b1 & f1 & b2 & f2 & a' & Er & Ew & Hf & A1 & A2 & A3 & A4 & A5 & A6 & _).
    cbv zeta in *. rewrite K in P. cbn [snd] in P. rewrite Ew in P. cbn [w_log] in P. specialize (P _ eq_refl).
    rewrite Eh in Hf. rewrite Ec in *.
    exists r, b1, f1, b2, f2. cbv zeta. split; [exact Er|].
    repeat (split; [solve [auto using dset_nil|eapply solved_forces; eauto using dset_nil; cbn; tauto]|]). exact A6.
  Qed.

  Lemma damping_wings w a c h d w' :
    w_aero w = Some a -> given a -> als a = None -> w_ctl w = Some c -> c <> [] -> w_model w = mu_after E X h ->
    damping_derivatives H w = (Ok d, w') ->
    exists r b1 f1 b2 f2 b3 f3,
      let V := match dget (an a) "V_mag" with Some x => x | None => 10 end in
      let p := entry (an a) "roll_rate" in let q := entry (an a) "pitch_rate" in let y := entry (an a) "yaw_rate" in
      let dlat := / 200 * (2 * V / r_lat r) in let dlong := / 200 * (2 * V / r_long r) in
      let e1 := dset (an a) "roll_rate" p in let e2 := dset e1 "pitch_rate" q in
      let qS := dynamic_pressure (an a) * r_Sw r in
      mm_refs X = Some r /\
      forces E X ps (numbers (dset (an a) "roll_rate" (p - dlat))) (Some c) = Ok b1 /\
      forces E X ps (numbers (dset (an a) "roll_rate" (p + dlat))) (Some c) = Ok f1 /\
      forces E X ps (numbers (dset e1 "pitch_rate" (q - dlong))) (Some c) = Ok b2 /\
      forces E X ps (numbers (dset e1 "pitch_rate" (q + dlong))) (Some c) = Ok f2 /\
      forces E X ps (numbers (dset e2 "yaw_rate" (y - dlat))) (Some c) = Ok b3 /\
      forces E X ps (numbers (dset e2 "yaw_rate" (y + dlat))) (Some c) = Ok f3 /\
      central_differences d "_pbar" (r_lat r) (r_long r) qS (/ 200) f1 b1 /\
      central_differences d "_qbar" (r_lat r) (r_long r) qS (/ 200) f2 b2 /\
      central_differences d "_rbar" (r_lat r) (r_long r) qS (/ 200) f3 b3.
  Proof.
    intros Ea Ha Hp Ec Hc Eh K.
    destruct (plain_damping H wsame w) as [_ P]. { intros a0 K0. rewrite Ea in K0. now injection K0 as <-. }
    destruct (damping_given H (host_keeps E X ps) _ _ _ _ Ea Ha K)
      as (r & k1 & k2 & k3 & k4 & k5 & k6 & b1 & f1 & b2 & f2 & b3 & f3 & a' & Er & Ew & Hf & A1 & A2 & A3 & A4 & A5 & A6 & A7 & A8 & A9 & _).
    cbv zeta in *. rewrite K in P. cbn [snd] in P. rewrite Ew in P. cbn [w_log] in P. specialize (P _ eq_refl).
    rewrite Eh in Hf. rewrite Ec in *.
    exists r, b1, f1, b2, f2, b3, f3. cbv zeta. split; [exact Er|].
    repeat (split; [solve [auto using dset_nil|eapply solved_forces; eauto using dset_nil; cbn; tauto]|]). exact A9.
  Qed.

  Lemma control_wings w a c h d w' :
    w_aero w = Some a -> given a -> als a = None -> w_ctl w = Some c -> c <> [] -> w_model w = mu_after E X h ->
    control_derivatives H w = (Ok d, w') ->
    exists r b1 f1 b2 f2 b3 f3 b4 f4,
      let x0 := entry c "aileron" in let x1 := entry c "elevator" in
      let x2 := entry c "rudder" in let x3 := entry c "flap" in
      let c1 := dset c "aileron" x0 in let c2 := dset c1 "elevator" x1 in let c3 := dset c2 "rudder" x2 in
      let q := dynamic_pressure (an a) * r_Sw r in
      mm_refs X = Some r /\
      forces E X ps a (Some (dset c "aileron" (x0 - 1 / 4))) = Ok b1 /\
      forces E X ps a (Some (dset c "aileron" (x0 + 1 / 4))) = Ok f1 /\
      forces E X ps a (Some (dset c1 "elevator" (x1 - 1 / 4))) = Ok b2 /\
      forces E X ps a (Some (dset c1 "elevator" (x1 + 1 / 4))) = Ok f2 /\
      forces E X ps a (Some (dset c2 "rudder" (x2 - 1 / 4))) = Ok b3 /\
      forces E X ps a (Some (dset c2 "rudder" (x2 + 1 / 4))) = Ok f3 /\
      forces E X ps a (Some (dset c3 "flap" (x3 - 1 / 4))) = Ok b4 /\
      forces E X ps a (Some (dset c3 "flap" (x3 + 1 / 4))) = Ok f4 /\
      central_differences d "_da" (r_lat r) (r_long r) q (degrees (1 / 4)) f1 b1 /\
      central_differences d "_de" (r_lat r) (r_long r) q (degrees (1 / 4)) f2 b2 /\
      central_differences d "_dr" (r_lat r) (r_long r) q (degrees (1 / 4)) f3 b3 /\
      central_differences d "_df" (r_lat r) (r_long r) q (degrees (1 / 4)) f4 b4.
  Proof.
    intros Ea Ha Hp Ec Hc Eh K.
    destruct (plain_control H wsame w) as [_ P]. { intros a0 K0. rewrite Ea in K0. now injection K0 as <-. }
    destruct (control_given H (host_keeps E X ps) _ _ _ _ _ Ea Ec Hc K)
      as (r & k1 & k2 & k3 & k4 & k5 & k6 & k7 & k8 & b1 & f1 & b2 & f2 & b3 & f3 & b4 & f4 & a' & Er & Ew & Hf & A1 & A2 & A3 & _ & A5 & A6 & A7 & A8 & _).
    cbv zeta in *. rewrite K in P. cbn [snd] in P. rewrite Ew in P. cbn [w_log] in P. specialize (P _ eq_refl).
    rewrite Eh in Hf. specialize (A3 Ha).
    assert (Fa : forall x, forces E X ps a x = forces E X ps (numbers (an a)) x) by (intros x; now rewrite <- (plain_eta a Hp)).
    assert (Hn : an a <> []) by (destruct Ha; congruence).
    cbn [map] in A1, A2. injection A1 as B1 B2 B3 B4 B5 B6 B7 B8. injection A2 as D1 D2 D3 D4 D5 D6 D7 D8.
    rewrite Forall_forall in A3.
    exists r, b1, f1, b2, f2, b3, f3, b4, f4. cbv zeta. split; [exact Er|].
    repeat (split; [solve [auto using dset_nil|rewrite Fa; eapply solved_forces; [exact Hf|exact P| |split; [apply A3|split; [eassumption|eassumption]]| |]; eauto using dset_nil; cbn; tauto]|]). exact A8.
  Qed.

  (** the same as groups *)
  Notation F := (forces_of E X ps).
  Lemma stability_wings' w a c h d w' :
    w_aero w = Some a -> given a -> als a = None -> w_ctl w = Some c -> c <> [] -> w_model w = mu_after E X h ->
    stability_derivatives H w = (Ok d, w') ->
    exists r, mm_refs X = Some r /\ stability_group F r (an a) c d.
  Proof.
    intros Ea Ha Hp Ec Hc Eh K. destruct (stability_wings w a c h d w' Ea Ha Hp Ec Hc Eh K) as (r & b1 & f1 & b2 & f2 & P0 & P).
    exists r. split; [exact P0|]. exists b1, f1, b2, f2. exact P.
  Qed.
  Lemma damping_wings' w a c h d w' :
    w_aero w = Some a -> given a -> als a = None -> w_ctl w = Some c -> c <> [] -> w_model w = mu_after E X h ->
    damping_derivatives H w = (Ok d, w') ->
    exists r, mm_refs X = Some r /\ damping_group F r (an a) c d.
  Proof.
    intros Ea Ha Hp Ec Hc Eh K. destruct (damping_wings w a c h d w' Ea Ha Hp Ec Hc Eh K) as (r & b1 & f1 & b2 & f2 & b3 & f3 & P0 & P).
    exists r. split; [exact P0|]. exists b1, f1, b2, f2, b3, f3. exact P.
  Qed.
  Lemma control_wings' w a c h d w' :
    w_aero w = Some a -> given a -> als a = None -> w_ctl w = Some c -> c <> [] -> w_model w = mu_after E X h ->
    control_derivatives H w = (Ok d, w') ->
    exists r, mm_refs X = Some r /\ control_group F r (an a) c d.
  Proof.
    intros Ea Ha Hp Ec Hc Eh K. destruct (control_wings w a c h d w' Ea Ha Hp Ec Hc Eh K) as (r & b1 & f1 & b2 & f2 & b3 & f3 & b4 & f4 & P0 & P).
    exists r. split; [exact P0|]. exists b1, f1, b2, f2, b3, f3, b4, f4. unfold forces_of. rewrite <- (plain_eta a Hp). exact P.
  Qed.
End W.
