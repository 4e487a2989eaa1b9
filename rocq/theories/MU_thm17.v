(** The lemmas on MachUp in the form in which Props_MU.v states them. *)
From Coq Require Import Reals ZArith String Bool Arith Lia Lra List.
From Verif Require Import Base Num RVec Geometry Api Grid LLModel PropModel Spec_Grid Spec_Geom Spec_LL Spec_Prop MU Spec_MU
  LL_state LL_R LL_solve LL_props LL_thm LL_thm3 MU_thm MU_thm2 MU_thm3 MU_thm4 MU_thm5 MU_thm6 MU_thm7 MU_thm8 MU_thm9 MU_thm10
  MU_thm11 MU_thm12 MU_thm13 MU_thm14 MU_thm15 MU_thm16.
Import ListNotations.
Local Open Scope string_scope.

Section Any.
  Context {T : Type} {N : num_ops T}.

  Lemma omitted_not_given {S} (w : world T S) : omitted_aero (w_aero w) -> aero_given w = false.
  Proof.
    unfold omitted_aero, aero_given. intros [->| ->]; reflexivity.
  Qed.
  Lemma omitted_none (o : option (aero_state T)) : omitted_aero o -> forall a, o = Some a -> ~ given a.
  Proof.
    intros [->| ->] b E; [discriminate|]. injection E as <-. unfold given. cbn. intros [?|?]; congruence.
  Qed.
  Lemma omitted_ctl {S} (w : world T S) : omitted_control (w_ctl w) -> ctl_given w = false.
  Proof. unfold omitted_control, ctl_given. intros [->| ->]; reflexivity. Qed.

  (** C17 *)
  Lemma api_no_object E cs name pos : let pl := run_calls cs (new_airplane (T := T) name pos) in
    a_props pl <> [] -> forall X, make_machup E pl <> Ok X.
  Proof.
    intros pl Hp X K.
    assert (G : a_wings pl <> [] -> exists g, make_grid true pl = Ok g).
    { intros Hw. unfold make_machup in K. destruct (a_wings pl); [congruence|]. destruct (make_grid true pl); [eauto|discriminate]. }
    pose proof (api_propeller E cs name pos Hp G) as Q. fold pl in Q. congruence.
  Qed.

  (** C33 *)
  Lemma combined E X ps f (w : world T (mstate T)) a t w' : w_aero w = Some a -> given a ->
    mu_solve E X ps f w = (Ok t, w') ->
    exists p q a', (forall part, In part components -> part t = nadd (part p) (part q)) /\
      (mm_props X = [] -> (forall part, In part components -> part p = n0) /\ a' = a) /\
      (mm_props X <> [] -> exists pt rows ss,
         props_solve (me_prop E) (mm_cg X) (mm_points X) (Some a) ps (mm_props X) (m_ps (w_model w)) = (Ok (pt, rows), ss) /\
         p = pt_fm pt /\ an a' = an a /\ als a' = match rows with Some r => Some r | None => als a end) /\
      (mm_grid X = None -> forall part, In part components -> part q = n0) /\
      (forall g, mm_grid X = Some g -> exists s res,
         ll_solve (me_lsolve E) g (mm_cg X) "linear" (Some a') (w_ctl w) (m_ll (w_model w)) = (Ok TheResultsDict, s) /\
         l_results s = Some res /\ q = r_total res).
  Proof.
    intros Ea Ha K. destruct (solve_given E X ps f w a Ea Ha) as (r & a' & s' & P & _ & _ & _ & P4 & _).
    rewrite K in P4. cbn [fst] in P4. destruct r as [[[wing prop] tot]|e]; [|discriminate]. cbn in P4. injection P4 as ->.
    destruct (parts_add E X ps _ _ _ _ _ _ _ _ P) as (p & q & Q1 & Q2 & Q3). exists p, q, a'.
    assert (Z : forall part, In part components -> part zero_fm = n0).
    { unfold components. intros part Hin. repeat (destruct Hin as [<-|Hin]; [reflexivity|]). destruct Hin. }
    split. { intros part Hin. rewrite Q1. unfold components in Hin. repeat (destruct Hin as [<-|Hin]; [reflexivity|]). destruct Hin. }
    unfold wing_part in Q2.
    split. { intros E1. rewrite E1 in Q3. destruct Q3 as [-> ->]. auto. }
    split. { intros E1. destruct (mm_props X) as [|g0 gs]; [congruence|]. destruct Q3 as (pt & rows & ss & R1 & R2 & R3).
             exists pt, rows, ss. rewrite R3. destruct rows; auto. }
    split. { intros E1. rewrite E1 in Q2. now rewrite Q2. }
    intros g E1. rewrite E1 in Q2. destruct Q2 as (r & s & res & R1 & R2 & R3). destruct r. eauto.
  Qed.

  Lemma named_some n : n <> "" -> named (Some n) = Some n.
  Proof. destruct n; [congruence|reflexivity]. Qed.

  (** C35 *)
  Lemma solve_file_omitted E X ps n (w : world T (mstate T)) : omitted_aero (w_aero w) -> n <> "" ->
    w_files (snd (mu_solve E X ps (Some n) w)) = w_files w /\
    exists e, fst (mu_solve E X ps (Some n) w) = Err e /\
      (forall t, fst (mu_solve E X ps None w) = Ok t -> e = UnboundLocalError).
  Proof.
    intros Ho Hn. destruct (solve_omitted E X ps (Some n) w (omitted_none _ Ho)) as (r & a' & s' & P & _ & _ & _ & P4 & P5).
    destruct (solve_omitted E X ps None w (omitted_none _ Ho)) as (r2 & a2 & s2 & Q & _ & _ & _ & _ & Q5).
    rewrite P in Q. injection Q as <- <- <-. rewrite (named_some n Hn) in P5. cbn [named] in Q5.
    split; [exact P4|]. rewrite P5, Q5. destruct r as [q|e]; cbn; [eauto|]. exists e. split; [reflexivity|discriminate].
  Qed.
  Lemma solve_file_given E X ps n (w : world T (mstate T)) a : w_aero w = Some a -> given a -> n <> "" ->
    let w' := snd (mu_solve E X ps (Some n) w) in
    match fst (mu_solve E X ps (Some n) w) with
    | Ok t => exists wing prop, w_files w' = dset (w_files w) n [F_solve wing prop t] /\
        wing = match mm_grid X with Some _ => l_results (m_ll (w_model w')) | None => None end /\
        (mm_grid X <> None -> wing <> None) /\
        (mm_props X = [] -> prop = None) /\
        (mm_props X <> [] -> exists pt rows ss,
           props_solve (me_prop E) (mm_cg X) (mm_points X) (Some a) ps (mm_props X) (m_ps (w_model w)) = (Ok (pt, rows), ss) /\
           prop = Some pt)
    | Err _ => w_files w' = w_files w
    end.
  Proof.
    intros Ea Ha Hn. destruct (solve_given E X ps (Some n) w a Ea Ha) as (r & a' & s' & P & _ & _ & P2 & P3 & P4).
    rewrite (named_some n Hn) in P4. cbv zeta. rewrite P3, P4, P2. destruct r as [[[wing prop] tot]|e]; [|reflexivity].
    cbn [rbind snd]. exists wing, prop. split; [reflexivity|]. unfold solve_parts in P.
    destruct (mm_props X) as [|g0 gs] eqn:Ep.
    - destruct (mm_grid X) as [g|].
      + destruct (ll_solve _ _ _ _ _ _ _) as [[[]|e] l]; [|discriminate]. destruct (read_ref l TheResultsDict) as [res|] eqn:Er; [|discriminate].
        injection P as <- <- <- <- <-. cbn [m_ll]. cbn [read_ref] in Er. rewrite Er. repeat split; auto; congruence.
      + injection P as <- <- <- <- <-. repeat split; auto; congruence.
    - destruct (props_solve _ _ _ _ _ _ _) as [[[pt rows]|e] ss] eqn:Epp; [|discriminate].
      destruct (mm_grid X) as [g|].
      + destruct (ll_solve _ _ _ _ _ _ _) as [[[]|e] l]; [|discriminate]. destruct (read_ref l TheResultsDict) as [res|] eqn:Er; [|discriminate].
        injection P as <- <- <- <- <-. cbn [m_ll]. cbn [read_ref] in Er. rewrite Er. repeat split; try congruence. eauto 6.
      + injection P as <- <- <- <- <-. repeat split; try congruence. eauto 6.
  Qed.

  (** C27 *)
  Lemma results_stay E X k q p q' : obj_step E X k q = (Ok p, q') ->
    nth_error (snd q) p = None /\
    (exists f w', mu_solve E (with_cg (oc_cg k) X) (oc_ps k) (oc_file k) (MkW (oc_aero k) (oc_ctl k) (fst q) [] []) = (Ok f, w') /\
      forall ks, nth_error (snd (obj_after E X ks q')) p =
        Some [("FL", FL f); ("FD", FD f); ("FS", FS f); ("FX", FX f); ("FY", FY f); ("FZ", FZ f);
              ("MX", MX f); ("MY", MY f); ("MZ", MZ f)]).
  Proof.
    intros K. destruct (obj_step_new E X k q p q' K) as (-> & f & w' & Q1 & Q2). split; [apply nth_error_None; lia|].
    exists f, w'. split; [exact Q1|]. intros ks. now apply obj_after_keeps.
  Qed.

  Section H.
    Context {S : Type}.
    Variable H : host T S.
    Variable E : menv T.
    Lemma honest_log {A} (m : st (world T S) A) (w : world T S) r w' : honest H m -> w_log w = [] -> m w = (r, w') ->
      performed H (w_model w) (w_log w') (w_model w').
    Proof. intros Hm El K. destruct (Hm w) as (l & K1 & K2). rewrite K in K1, K2. cbn [snd] in K1, K2. rewrite El in K1. cbn in K1. now rewrite K1. Qed.
    (** C41 *)
    Lemma lift_whole' target f error (w : world T S) a r w' : keeps_numbers H ->
      w_aero w = Some a -> given a -> w_log w = [] -> target_lift H target f error w = (r, w') ->
      performed H (w_model w) (w_log w') (w_model w').
    Proof. intros Hk Ea Ga El K. exact (honest_log _ _ _ _ (honest_target_lift H target f error) El K). Qed.
    Lemma lift_default target f error (w : world T S) : omitted_aero (w_aero w) ->
      let v := target_lift H target None (ndec 1 9)
                 (MkW (Some (MkAero [("V_mag", nint 10); ("rho", ndec 23769 7); ("alpha", n0)] None)) (w_ctl w) (w_model w) (w_files w) (w_log w)) in
      target_lift H target f error w =
        (fst v, MkW (w_aero w) (w_ctl (snd v)) (w_model (snd v))
                  (match named f, fst v with
                   | Some n, Ok (Answer x) => dset (w_files (snd v)) n [F_numbers [("alpha", x)]]
                   | Some n, Ok (ErrorRecord m) => dset (w_files (snd v)) n [F_error m]
                   | _, _ => w_files (snd v)
                   end) (w_log (snd v))).
    Proof.
      intros Ho v. pose proof (target_lift_omitted H target f error w (omitted_not_given w Ho)) as K. cbv zeta in K.
      change (target_lift H target None default_error (put_aero (Some default_aero) w)) with v in K. rewrite K. f_equal. f_equal.
      unfold write_report, report. destruct (named f); [|reflexivity]. destruct (fst v) as [[|]|]; reflexivity.
    Qed.
    (** C43, C44 *)
    Lemma trim_whole L m f error (w : world T S) a c r w' : keeps_numbers H ->
      w_aero w = Some a -> given a -> w_ctl w = Some c -> c <> [] -> w_log w = [] -> pitch_trim H E L m f error w = (r, w') ->
      performed H (w_model w) (w_log w') (w_model w') /\ (List.length (w_log w') <= 909)%nat /\
      match r with
      | Ok (Some (x, y)) =>
          exists pre k a', w_log w' = (pre ++ [k])%list /\ trimmed_at (an a) c L m error k x y /\
            w_aero w' = Some a' /\ an a' = dset (an a) "alpha" x /\ w_ctl w' = Some (dset c "elevator" y) /\
            w_files w' = match named f with Some n => dset (w_files w) n [F_numbers [("alpha", x); ("elevator", y)]] | None => w_files w end
      | Ok None => exists n msg, named f = Some n /\ (msg = "no_elevator" \/ msg = "untrimmable") /\
                     w_files w' = dset (w_files w) n [F_error msg]
      | Err _ => w_files w' = w_files w
      end.
    Proof.
      intros Hk Ea Ga Ec Gc El K. split; [exact (honest_log _ _ _ _ (honest_pitch_trim H E L m f error) El K)|]. destruct (trim_spec H E Hk L m f error w a c r w' Ea Ga Ec Gc K) as (K1 & l & K2 & K3).
      rewrite El in K2. cbn in K2. split; [now rewrite K2|exact K1].
    Qed.
    Lemma trim_default L m f error (w : world T S) : omitted_aero (w_aero w) \/ omitted_control (w_ctl w) ->
      let fly := Some (MkAero [("V_mag", nint 10); ("rho", ndec 23769 7)] None) in
      let neutral := Some [("aileron", n0); ("elevator", n0); ("rudder", n0); ("flap", n0)] in
      (omitted_aero (w_aero w) -> omitted_control (w_ctl w) ->
         let v := pitch_trim H E L m None (ndec 1 9) (MkW fly neutral (w_model w) (w_files w) (w_log w)) in
         pitch_trim H E L m f error w = (fst v, MkW (w_aero w) (w_ctl w) (w_model (snd v)) (w_files (snd v)) (w_log (snd v)))) /\
      (forall c, omitted_aero (w_aero w) -> w_ctl w = Some c -> c <> [] ->
         let v := pitch_trim H E L m None (ndec 1 9) (MkW fly (w_ctl w) (w_model w) (w_files w) (w_log w)) in
         pitch_trim H E L m f error w = (fst v, MkW (w_aero w) (w_ctl (snd v)) (w_model (snd v)) (w_files (snd v)) (w_log (snd v)))) /\
      (forall a, w_aero w = Some a -> given a -> omitted_control (w_ctl w) ->
         let v := pitch_trim H E L m None (ndec 1 9) (MkW (w_aero w) neutral (w_model w) (w_files w) (w_log w)) in
         pitch_trim H E L m f error w = (fst v, MkW (w_aero (snd v)) (w_ctl w) (w_model (snd v)) (w_files (snd v)) (w_log (snd v)))).
    Proof.
      intros Ho fly neutral.
      assert (K : pitch_trim H E L m f error w = handed_back w (pitch_trim H E L m None default_error (completed w))).
      { apply trim_omitted. destruct Ho as [Ho|Ho]; [left; now apply omitted_not_given|right; now apply omitted_ctl]. }
      rewrite K. unfold handed_back, completed. split; [|split].
      - intros H1 H2. rewrite (omitted_not_given w H1), (omitted_ctl w H2). reflexivity.
      - intros c H1 H2 H3. rewrite (omitted_not_given w H1), (ctl_given_some w c H2 H3). reflexivity.
      - intros a H1 H2 H3. rewrite (aero_given_some w a H1 H2), (omitted_ctl w H3). reflexivity.
    Qed.
    (** C45 *)
    Lemma onset_whole f (w : world T S) a refs r w' : keeps_numbers H -> h_refs H = Some refs -> w_aero w = Some a -> given a -> w_log w = [] ->
      stall_onset H E f w = (r, w') ->
      performed H (w_model w) (w_log w') (w_model w') /\
      match r with
      | Ok (Answer i) =>
          si_airspeed i = None /\ stall_scan (h_stalled H) (me_round2 E) (an a) (w_ctl w) (w_log w') i /\
          w_ctl w' = w_ctl w /\
          w_files w' = match named f with Some nm => dset (w_files w) nm [F_stall i] | None => w_files w end /\
          exists n a', List.length (w_log w') = Datatypes.S n /\ w_aero w' = Some a' /\ an a' = dset (an a) "alpha" (tenths n)
      | Ok (ErrorRecord _) => False
      | Err _ => w_files w' = w_files w
      end.
    Proof.
      intros Hk Hr Ea Ga El K. split; [exact (honest_log _ _ _ _ (honest_stall_onset H E f) El K)|]. pose proof (onset_given H E Hk f w a refs r w' Hr Ea Ga K) as Q. destruct r as [[i|m]|e]; auto.
      destruct Q as (Q1 & l & n & a' & Q2 & Q3 & Q4 & Q5). rewrite El in Q4. cbn in Q4.
      assert (L : w_log w' = l) by now rewrite Q4. rewrite L. split; [exact Q1|]. split; [exact Q2|].
      split; [now rewrite Q4|]. split; [now rewrite Q4|]. exists n, a'. split; [exact Q3|]. split; [now rewrite Q4|exact Q5].
    Qed.
    Lemma onset_default f (w : world T S) refs : h_refs H = Some refs -> omitted_aero (w_aero w) ->
      let v := stall_onset H E f (MkW (Some (MkAero [("V_mag", nint 10); ("rho", ndec 23769 7); ("alpha", n0)] None)) (w_ctl w) (w_model w) (w_files w) (w_log w)) in
      stall_onset H E f w = (fst v, MkW (w_aero w) (w_ctl (snd v)) (w_model (snd v)) (w_files (snd v)) (w_log (snd v))).
    Proof. intros Hr Ho. exact (onset_omitted H E f w refs Hr (omitted_not_given w Ho)). Qed.
    (** C46 *)
    Lemma airspeed_whole weight f error (w : world T S) a refs r w' : keeps_numbers H -> h_refs H = Some refs -> w_aero w = Some a -> given a -> w_log w = [] ->
      stall_airspeed H E weight f error w = (r, w') ->
      performed H (w_model w) (w_log w') (w_model w') /\ w_aero w' = w_aero w /\
      match r with
      | Ok (Answer i) => w_ctl w' = w_ctl w /\
          w_files w' = (match named f with Some nm => dset (w_files w) nm [F_stall i] | None => w_files w end) /\
          exists pre l0 l1 x0 x1 x2 i0 i1, w_log w' = (pre ++ l0 ++ l1)%list /\
            last_scans (stall_scan (h_stalled H) (me_round2 E)) weight error (an a) (w_ctl w) l0 l1 x0 x1 x2 i0 i1 i
      | Ok (ErrorRecord _) => False
      | Err _ => True
      end.
    Proof. intros Hk Hr Ea Ga El K. split; [exact (honest_log _ _ _ _ (honest_stall_airspeed H E weight f error) El K)|]. exact (airspeed_given H E Hk weight f error w a refs r w' Hr Ea Ga K). Qed.
    Lemma airspeed_always_raises weight f error (w : world T S) refs : h_refs H = Some refs -> omitted_aero (w_aero w) ->
      stall_airspeed H E weight f error w = (Err AttributeError, w).
    Proof. intros Hr Ho. exact (airspeed_omitted H E weight f error w refs Hr (omitted_not_given w Ho)). Qed.
  End H.
End Any.

Section Derivatives.
  Local Open Scope R_scope.
  Context {S : Type}.
  Variable H : host R S.
  Hypothesis Hk : keeps_numbers H.
  Lemma stability_whole w a d w' : w_aero w = Some a -> given a -> stability_derivatives H w = (Ok d, w') ->
    exists r k1 k2 k3 k4 b1 f1 b2 f2 a',
      let alpha := entry (an a) "alpha" in let beta := entry (an a) "beta" in
      let level := dset (an a) "alpha" alpha in let q := dynamic_pressure (an a) * r_Sw r in
      h_refs H = Some r /\
      w_log w' = (w_log w ++ [k1; k2; k3; k4])%list /\ performed H (w_model w) [k1; k2; k3; k4] (w_model w') /\
      solved_at k1 (dset (an a) "alpha" (alpha - 1 / 2)) (w_ctl w) b1 /\
      solved_at k2 (dset (an a) "alpha" (alpha + 1 / 2)) (w_ctl w) f1 /\
      solved_at k3 (dset level "beta" (beta - 1 / 2)) (w_ctl w) b2 /\
      solved_at k4 (dset level "beta" (beta + 1 / 2)) (w_ctl w) f2 /\
      central_differences d "_a" (r_lat r) (r_long r) q (degrees (1 / 2)) f1 b1 /\
      central_differences d "_b" (r_lat r) (r_long r) q (degrees (1 / 2)) f2 b2 /\
      w_ctl w' = w_ctl w /\ w_files w' = w_files w /\ w_aero w' = Some a' /\
      dget (an a') "alpha" = Some alpha /\ dget (an a') "beta" = Some beta /\
      (forall key, key <> "alpha" -> key <> "beta" -> dget (an a') key = dget (an a) key).
  Proof.
    intros Ea Ga K. destruct (stability_given H Hk w a d w' Ea Ga K) as (r & k1 & k2 & k3 & k4 & b1 & f1 & b2 & f2 & a' & Q0 & Q1 & Q2 & Q3 & Q4 & Q5 & Q6 & Q7 & Q8 & Q9).
    cbv zeta in Q9. exists r, k1, k2, k3, k4, b1, f1, b2, f2, a'. cbv zeta.
    assert (L1 : w_log w' = (w_log w ++ [k1; k2; k3; k4])%list) by now rewrite Q1.
    assert (L2 : w_ctl w' = w_ctl w) by now rewrite Q1. assert (L3 : w_files w' = w_files w) by now rewrite Q1.
    assert (L4 : w_aero w' = Some a') by now rewrite Q1. clear Q1.
    rewrite Q9. do 12 (split; [assumption|]).
    split; [rewrite dget_dset_other, dget_dset_same by discriminate; reflexivity|]. split; [apply dget_dset_same|].
    intros key N1 N2. rewrite !dget_dset_other by congruence. reflexivity.
  Qed.
  Lemma damping_whole w a d w' : w_aero w = Some a -> given a -> damping_derivatives H w = (Ok d, w') ->
    exists r k1 k2 k3 k4 k5 k6 b1 f1 b2 f2 b3 f3 a',
      let V := match dget (an a) "V_mag" with Some x => x | None => 10 end in
      let p := entry (an a) "roll_rate" in let q := entry (an a) "pitch_rate" in let y := entry (an a) "yaw_rate" in
      let dlat := / 200 * (2 * V / r_lat r) in let dlong := / 200 * (2 * V / r_long r) in
      let e1 := dset (an a) "roll_rate" p in let e2 := dset e1 "pitch_rate" q in
      let qS := dynamic_pressure (an a) * r_Sw r in
      let ks := [k1; k2; k3; k4; k5; k6] in
      h_refs H = Some r /\ w_log w' = (w_log w ++ ks)%list /\ performed H (w_model w) ks (w_model w') /\
      solved_at k1 (dset (an a) "roll_rate" (p - dlat)) (w_ctl w) b1 /\
      solved_at k2 (dset (an a) "roll_rate" (p + dlat)) (w_ctl w) f1 /\
      solved_at k3 (dset e1 "pitch_rate" (q - dlong)) (w_ctl w) b2 /\
      solved_at k4 (dset e1 "pitch_rate" (q + dlong)) (w_ctl w) f2 /\
      solved_at k5 (dset e2 "yaw_rate" (y - dlat)) (w_ctl w) b3 /\
      solved_at k6 (dset e2 "yaw_rate" (y + dlat)) (w_ctl w) f3 /\
      central_differences d "_pbar" (r_lat r) (r_long r) qS (/ 200) f1 b1 /\
      central_differences d "_qbar" (r_lat r) (r_long r) qS (/ 200) f2 b2 /\
      central_differences d "_rbar" (r_lat r) (r_long r) qS (/ 200) f3 b3 /\
      w_ctl w' = w_ctl w /\ w_files w' = w_files w /\ w_aero w' = Some a' /\
      dget (an a') "roll_rate" = Some p /\ dget (an a') "pitch_rate" = Some q /\
      dget (an a') "yaw_rate" = Some q /\
      (forall key, ~ In key ["roll_rate"; "pitch_rate"; "yaw_rate"] -> dget (an a') key = dget (an a) key).
  Proof.
    intros Ea Ga K. destruct (damping_given H Hk w a d w' Ea Ga K) as (r & k1 & k2 & k3 & k4 & k5 & k6 & b1 & f1 & b2 & f2 & b3 & f3 & a' & Q0 & Q1 & Q2 & Q3 & Q4 & Q5 & Q6 & Q7 & Q8 & Q9 & Q10 & Q11 & Q12).
    cbv zeta in Q12. exists r, k1, k2, k3, k4, k5, k6, b1, f1, b2, f2, b3, f3, a'. cbv zeta.
    assert (L1 : w_log w' = (w_log w ++ [k1; k2; k3; k4; k5; k6])%list) by now rewrite Q1.
    assert (L2 : w_ctl w' = w_ctl w) by now rewrite Q1. assert (L3 : w_files w' = w_files w) by now rewrite Q1.
    assert (L4 : w_aero w' = Some a') by now rewrite Q1. clear Q1.
    rewrite Q12. do 15 (split; [assumption|]).
    split; [rewrite !dget_dset_other, dget_dset_same by discriminate; reflexivity|].
    split; [rewrite dget_dset_other, dget_dset_same by discriminate; reflexivity|]. split; [apply dget_dset_same|].
    intros key Nk. cbn [In] in Nk. rewrite !dget_dset_other by (intros C; subst; tauto). reflexivity.
  Qed.
  Lemma control_whole w a c d w' : w_aero w = Some a -> w_ctl w = Some c -> c <> [] -> control_derivatives H w = (Ok d, w') ->
    exists r k1 k2 k3 k4 k5 k6 k7 k8 b1 f1 b2 f2 b3 f3 b4 f4 a' c',
      let x0 := entry c "aileron" in let x1 := entry c "elevator" in
      let x2 := entry c "rudder" in let x3 := entry c "flap" in
      let c1 := dset c "aileron" x0 in let c2 := dset c1 "elevator" x1 in let c3 := dset c2 "rudder" x2 in
      let q := dynamic_pressure (an a) * r_Sw r in
      let ks := [k1; k2; k3; k4; k5; k6; k7; k8] in
      h_refs H = Some r /\ w_log w' = (w_log w ++ ks)%list /\ performed H (w_model w) ks (w_model w') /\
      map (@k_c R S) ks = map Some
        [dset c "aileron" (x0 - 1 / 4); dset c "aileron" (x0 + 1 / 4);
         dset c1 "elevator" (x1 - 1 / 4); dset c1 "elevator" (x1 + 1 / 4);
         dset c2 "rudder" (x2 - 1 / 4); dset c2 "rudder" (x2 + 1 / 4);
         dset c3 "flap" (x3 - 1 / 4); dset c3 "flap" (x3 + 1 / 4)] /\
      map (@k_r R S) ks = map Ok [b1; f1; b2; f2; b3; f3; b4; f4] /\
      (given a -> forall k, In k ks -> an (k_a k) = an a) /\
      (~ given a -> forall k, In k ks -> k_a k = MkAero [("V_mag", 10); ("rho", 23769 / 10000000); ("alpha", 0)] None) /\
      central_differences d "_da" (r_lat r) (r_long r) q (degrees (1 / 4)) f1 b1 /\
      central_differences d "_de" (r_lat r) (r_long r) q (degrees (1 / 4)) f2 b2 /\
      central_differences d "_dr" (r_lat r) (r_long r) q (degrees (1 / 4)) f3 b3 /\
      central_differences d "_df" (r_lat r) (r_long r) q (degrees (1 / 4)) f4 b4 /\
      w_files w' = w_files w /\ w_aero w' = Some a' /\ an a' = an a /\ w_ctl w' = Some c' /\
      dget c' "aileron" = Some x0 /\ dget c' "elevator" = Some x1 /\ dget c' "rudder" = Some x2 /\ dget c' "flap" = Some x3 /\
      (forall key, ~ In key ["aileron"; "elevator"; "rudder"; "flap"] -> dget c' key = dget c key).
  Proof.
    intros Ea Ec Hc K. destruct (control_given H Hk w a c d w' Ea Ec Hc K)
      as (r & k1 & k2 & k3 & k4 & k5 & k6 & k7 & k8 & b1 & f1 & b2 & f2 & b3 & f3 & b4 & f4 & a' & Q0 & Q1 & Q2 & Q3 & Q4 & Q5 & Q6 & Q7 & Q8 & Q9 & Q10 & Q11).
    cbv zeta in Q1.
    match type of Q1 with w' = MkW _ (Some ?c4) _ _ _ => exists r, k1, k2, k3, k4, k5, k6, k7, k8, b1, f1, b2, f2, b3, f3, b4, f4, a', c4; set (c' := c4) in * end.
    cbv zeta.
    assert (L1 : w_log w' = (w_log w ++ [k1; k2; k3; k4; k5; k6; k7; k8])%list) by now rewrite Q1.
    assert (L2 : w_ctl w' = Some c') by now rewrite Q1. assert (L3 : w_files w' = w_files w) by now rewrite Q1.
    assert (L4 : w_aero w' = Some a') by now rewrite Q1. clear Q1.
    split; [exact Q0|]. split; [exact L1|]. split; [exact Q2|]. split; [exact Q3|]. split; [exact Q4|].
    split. { intros G. apply Forall_forall. exact (Q5 G). }
    split. { intros G k Hin. pose proof (proj1 (Forall_forall _ _) (Q6 G) k Hin) as D. rewrite D. unfold default_aero. rnum. unfold Rdec. reflexivity.
             }
    do 8 (split; [assumption|]). subst c'.
    split; [rewrite !dget_dset_other, dget_dset_same by discriminate; reflexivity|].
    split; [rewrite !dget_dset_other, dget_dset_same by discriminate; reflexivity|].
    split; [rewrite dget_dset_other, dget_dset_same by discriminate; reflexivity|].
    split; [apply dget_dset_same|].
    intros key Nk. cbn [In] in Nk. rewrite !dget_dset_other by (intros C; subst; tauto). reflexivity.
  Qed.
  Lemma stability_default w : omitted_aero (w_aero w) ->
    let v := stability_derivatives H (MkW (Some (MkAero [("V_mag", nint 10); ("rho", ndec 23769 7); ("alpha", n0)] None)) (w_ctl w) (w_model w) (w_files w) (w_log w)) in
    stability_derivatives H w = (fst v, MkW (w_aero w) (w_ctl (snd v)) (w_model (snd v)) (w_files (snd v)) (w_log (snd v))).
  Proof. intros Ho. exact (stability_omitted H w (omitted_not_given w Ho)). Qed.
  Lemma damping_default w : omitted_aero (w_aero w) ->
    let v := damping_derivatives H (MkW (Some (MkAero [("V_mag", nint 10); ("rho", ndec 23769 7)] None)) (w_ctl w) (w_model w) (w_files w) (w_log w)) in
    damping_derivatives H w = (fst v, MkW (w_aero w) (w_ctl (snd v)) (w_model (snd v)) (w_files (snd v)) (w_log (snd v))).
  Proof. intros Ho. exact (damping_omitted H w (omitted_not_given w Ho)). Qed.
  Lemma control_default w : omitted_control (w_ctl w) ->
    let v := control_derivatives H (MkW (w_aero w) (Some [("aileron", n0); ("elevator", n0); ("rudder", n0); ("flap", n0)]) (w_model w) (w_files w) (w_log w)) in
    control_derivatives H w = (fst v, MkW (w_aero (snd v)) (w_ctl w) (w_model (snd v)) (w_files (snd v)) (w_log (snd v))).
  Proof. intros Ho. exact (control_omitted H w (omitted_ctl w Ho)). Qed.
End Derivatives.

(** C47 *)
Lemma center_default {S} (H : host R S) E f (w : world R S) : omitted_aero (w_aero w) ->
  let v := find_aero_center H E f (MkW (Some (MkAero [("V_mag", nint 10); ("rho", ndec 23769 7); ("alpha", n0)] None)) (w_ctl w) (w_model w) (w_files w) (w_log w)) in
  find_aero_center H E f w = (fst v, MkW (w_aero w) (w_ctl (snd v)) (w_model (snd v)) (w_files (snd v)) (w_log (snd v))).
Proof. intros Ho. exact (center_omitted H E f w (omitted_not_given w Ho)). Qed.

(** C44 *)
Lemma trim_default_files {T} {N : num_ops T} {S} (H : host T S) E L m f error (w : world T S) r w' : keeps_numbers H -> w_log w = [] ->
  omitted_aero (w_aero w) \/ omitted_control (w_ctl w) -> pitch_trim H E L m f error w = (r, w') -> w_files w' = w_files w.
Proof.
  intros Hk El Ho K.
  assert (Q : pitch_trim H E L m f error w = handed_back w (pitch_trim H E L m None default_error (completed w))).
  { apply trim_omitted. destruct Ho as [Ho|Ho]; [left; now apply omitted_not_given|right; now apply omitted_ctl]. }
  rewrite Q in K. unfold handed_back in K. injection K as _ <-. cbn [w_files].
  destruct (pitch_trim H E L m None default_error (completed w)) as [r0 v] eqn:Kv. cbn [snd].
  assert (Ga : exists a, w_aero (completed w) = Some a /\ given a).
  { unfold completed. cbn [w_aero]. destruct (aero_given w) eqn:G; [now apply aero_given_inv|]. eexists. split; [reflexivity|left; discriminate]. }
  assert (Gc : exists c, w_ctl (completed w) = Some c /\ c <> []).
  { unfold completed. cbn [w_ctl]. destruct (ctl_given w) eqn:G; [now apply ctl_given_inv|]. eexists. split; [reflexivity|discriminate]. }
  destruct Ga as (a & Ea & Ga). destruct Gc as (c & Ec & Gc).
  destruct (trim_whole H E L m None default_error (completed w) a c r0 v Hk Ea Ga Ec Gc El Kv) as (_ & _ & P).
  destruct r0 as [[[x y]|]|e].
  - destruct P as (_ & _ & _ & _ & _ & _ & _ & _ & P). exact P.
  - destruct P as (n & msg & C & _). discriminate.
  - exact P.
Qed.

(** C47 *)
Lemma center_whole {S} (H : host R S) E : keeps_numbers H -> forall f w v w' a,
  find_aero_center H E f w = (Ok v, w') -> w_aero w = Some a -> given a ->
  exists r ks a', h_refs H = Some r /\ List.length ks = 400%nat /\ performed H (w_model w) ks (w_model w') /\
    (forall j k, nth_error ks j = Some k -> exists f, solved_at k (dset (an a) "alpha" (-10 + INR j / 20)%R) (w_ctl w) f) /\
    w' = MkW (Some a') (w_ctl w) (w_model w')
           (match named f with Some nm => dset (w_files w) nm [F_numbers [("x_ac", vx v); ("z_ac", vz v)]] | None => w_files w end)
           (w_log w ++ ks) /\
    an a' = dset (an a) "alpha" (995 / 100)%R /\
    forall pl : polar, exact_inv (me_inv E) -> p_slope pl <> 0%R -> (- PI / 2 < p_aL0 pl < PI / 2)%R ->
      (forall j k fm, nth_error ks j = Some k -> k_r k = Ok fm ->
         follows pl (dynamic_pressure (an a) * r_Sw r)%R (r_long r) (-10 + INR j / 20)%R fm) ->
      v = center_for pl (r_long r) (entry (an a) "alpha") (h_cg H).
Proof.
  intros Hk f w v w' a K Ea Ga. destruct (center_given H E Hk f w v w' a K Ea Ga) as (r & ks & a' & P1 & P2 & P3 & P4 & P5 & P6).
  exists r, ks, a'. split; [exact P1|]. split; [exact P2|]. split; [|auto].
  destruct (honest_find_aero_center H E f w) as (l & K1 & K2). rewrite K in K1, K2. cbn [snd] in K1, K2.
  assert (L : w_log w' = (w_log w ++ ks)%list) by now rewrite P4. rewrite L in K1. apply app_inv_head in K1. now subst l.
Qed.

(** The wings do not depend on the propellers. *)
Section Props.
  Context {T : Type} {N : num_ops T}.
  Lemma position_props ps : forall n (pl : airplane T) s at_, seg_position n (set_props pl ps) s at_ = seg_position n pl s at_.
  Proof.
    induction n as [|n IH]; intros pl s at_; [reflexivity|]. unfold seg_position; fold (@seg_position T N). cbn [set_props a_store].
    destruct (sg_parent s); try reflexivity. match goal with |- context [nth_error (a_store pl) ?q] => destruct (nth_error (a_store pl) q) as [w|]; [|reflexivity] end.
    destruct (w_left w), (w_right w); rewrite ?IH; reflexivity.
  Qed.
  Lemma fill_props b ps (pl : airplane T) : forall segs i sl arr area,
    fill b (set_props pl ps) segs i sl arr area = fill b pl segs i sl arr area.
  Proof.
    assert (B : forall s, segment_block b (set_props pl ps) s = segment_block b pl s).
    { intros s. unfold segment_block. change (position_fuel (set_props pl ps)) with (position_fuel pl). now rewrite !position_props. }
    induction segs as [|s segs IH]; intros; [reflexivity|]. cbn [fill]. rewrite B.
    destruct (segment_block b pl s) as [x|]; [|reflexivity]. cbn [rbind]. destruct (write_block arr i x); [apply IH|reflexivity].
  Qed.
  Lemma grid_props b ps (pl : airplane T) : make_grid b (set_props pl ps) = make_grid b pl.
  Proof. unfold make_grid. rewrite fill_props. reflexivity. Qed.
End Props.
