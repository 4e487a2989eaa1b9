(** Changing the system of units: running the propellers (C72). *)
From Coq Require Import Reals ZArith String Bool Arith Lia Lra List.
From Verif Require Import Base Num RVec Geometry Grid LLModel PropModel Spec_LL Spec_Units LL_R LL_scale LL_units Prop_units.
Import ListNotations.
Local Open Scope string_scope.
Local Open Scope R_scope.

Section Units.
  Variables m k l : R.
  Variable u : option string.
  Hypothesis Hm : 0 < m.
  Hypothesis Hk : 0 < k.
  Hypothesis Hl : 0 < l.
  Notation q := (m * k ^ 2 * l ^ 2).
  Notation stin := (station_in l).
  Notation gin := (pgeom_in l u).

  Lemma map2_map_l {A A' B C} (f : A' -> B -> C) (g : A -> A') xs : forall ys, map2 f (map g xs) ys = map2 (fun x => f (g x)) xs ys.
  Proof. induction xs as [|x xs IH]; intros [|y ys]; cbn [map map2]; auto. now rewrite IH. Qed.
  Lemma map2_same {A B C} (f g : A -> B -> C) xs : forall ys, (forall x y, f x y = g x y) -> map2 f xs ys = map2 g xs ys.
  Proof. induction xs as [|x xs IH]; intros [|y ys] K; cbn [map2]; auto. rewrite K. now rewrite (IH ys K). Qed.

  (** *** Blade sections *)
  Lemma delay_in s : delay (stin s) = delay s.
  Proof. unfold delay. change (a_stall (stin s)) with (a_stall s). cbn [station_in z_cb z_r]. change (@ndiv R Rnum (l * z_cb s) (l * z_r s)) with (l * z_cb s / (l * z_r s)). rewrite (ratio l _ _ Hl). reflexivity. Qed.
  Lemma cl_at_in s a : cl_at (stin s) a = cl_at s a.
  Proof. unfold cl_at. rewrite delay_in. reflexivity. Qed.
  Lemma cd_at_in s c a : cd_at (stin s) c a = cd_at s c a.
  Proof. unfold cd_at, B2, B2_neg, delay_stall, delay_stall_neg. rewrite delay_in. reflexivity. Qed.
  Lemma get_CL_in mem ss al : get_CL mem (map stin ss) al = get_CL mem ss al.
  Proof. unfold get_CL. rewrite map2_map_l. f_equal. apply map2_same. exact cl_at_in. Qed.
  Lemma get_CD_in mem ss cl al : get_CD mem (map stin ss) cl al = get_CD mem ss cl al.
  Proof.
    unfold get_CD. f_equal. revert cl al. induction ss as [|s ss IH]; intros [|c cl] [|a al]; cbn [map map2]; auto.
    rewrite cd_at_in. f_equal. apply IH.
  Qed.
  Lemma chatb_in n d s : chatb n (l * d) (stin s) = chatb n d s.
  Proof.
    unfold chatb. cbn [station_in z_cb]. rnum. replace (INR n * (l * z_cb s)) with (l * (INR n * z_cb s)) by ring. rewrite <- (ratio l _ d Hl). f_equal; ring.
  Qed.
  Notation pin := (fun x => (stin (fst x), snd x)).
  Lemma ei_function_in mem n d bl (L : list (station R * (R * R))) :
    ei_function mem n (l * d) bl (map pin L) = ei_function mem n d bl L.
  Proof.
    unfold ei_function. rewrite map2_map_l, !map_map. cbn [fst snd].
    replace (map (fun x => stin (fst x)) L) with (map stin (map fst L)) by now rewrite map_map.
    rewrite get_CL_in. apply map2_same. intros x y. unfold ei_residual, ei_a. rewrite chatb_in. reflexivity.
  Qed.
  Definition estep_in (e : estep R) : estep R := MkE (stin (e_st e)) (e_inf e) (e_x0 e) (e_x1 e) (e_x2 e) (e_y0 e) (e_y1 e).
  Lemma next_in L : forall y, map2 e_next (map estep_in L) y = map estep_in (map2 e_next L y).
  Proof. induction L as [|e L IH]; intros [|y ys]; cbn [map map2]; auto. rewrite IH. reflexivity. Qed.
  Lemma ei_loop_in mem n d bl : forall fuel clk i L,
    ei_loop fuel mem clk n (l * d) bl i (map estep_in L) = ei_loop fuel mem clk n d bl i L.
  Proof.
    induction fuel as [|fuel IH]; intros clk i L; [reflexivity|]. cbn [ei_loop]. cbv zeta.
    replace (List.length (filter e_moves (map estep_in L))) with (List.length (filter e_moves L)).
    2:{ clear. induction L as [|e L IH]; [reflexivity|]. cbn [map filter]. change (e_moves (estep_in e)) with (e_moves e). destruct (e_moves e); cbn [List.length]; now rewrite IH. }
    replace (map e_update (map estep_in L)) with (map e_update L) by (rewrite map_map; now apply map_ext).
    destruct (_ || _)%bool; [reflexivity|].
    replace (map (fun e => (e_st e, (e_inf e, e_update e))) (map estep_in L)) with (map pin (map (fun e => (e_st e, (e_inf e, e_update e))) L)).
    2:{ rewrite !map_map. now apply map_ext. }
    rewrite ei_function_in, next_in. apply IH.
  Qed.
  Lemma esteps_in ss : forall a b c d e, esteps (map stin ss) a b c d e = map estep_in (esteps ss a b c d e).
  Proof. induction ss as [|s ss IH]; intros [|a A] [|b B] [|c C] [|d D] [|e E]; cbn [map esteps]; auto. rewrite IH. reflexivity. Qed.
  Lemma combine_in {B} ss : forall ys : list B, combine (map stin ss) ys = map pin (combine ss ys).
  Proof. induction ss as [|s ss IH]; intros [|y ys]; cbn [map combine]; auto. now rewrite IH. Qed.
  Lemma find_ei_in fuel mem clk n d bl ss einf ei :
    find_ei fuel mem clk n (l * d) bl (map stin ss) einf ei = find_ei fuel mem clk n d bl ss einf ei.
  Proof. unfold find_ei. cbv zeta. rewrite !combine_in, !ei_function_in, esteps_in. apply ei_loop_in. Qed.
  Lemma integrands_in n d ss : forall a b c e f, integrand_rows n (l * d) (map stin ss) a b c e f = integrand_rows n d ss a b c e f.
  Proof.
    induction ss as [|s ss IH]; intros [|a A] [|b B] [|c C] [|e E] [|f F]; cbn [map integrand_rows]; auto. rewrite IH. f_equal.
    unfold integrands. rewrite chatb_in. reflexivity.
  Qed.
  Lemma last_in ss : last_of (map stin ss) = option_map stin (last_of ss).
  Proof. unfold last_of. rewrite map_length, nth_error_map. reflexivity. Qed.

  (** *** States that agree: before and after each step *)
  Notation pst := (pstate R).
  Definition weak (s s' : pst) : Prop := p_clock s' = p_clock s /\ p_ei s' = p_ei s.
  Definition flow_rel (s s' : pst) : Prop := weak s s' /\ p_v s' = p_v s /\ p_rho s' = m * p_rho s /\ p_Vinf s' = k * p_Vinf s.
  Definition op_rel (s s' : pst) : Prop := flow_rel s s' /\ p_n s' = k / l * p_n s /\ p_J s' = p_J s /\
    (p_power s = None /\ p_power s' = None) /\ (p_throttle s = None /\ p_throttle s' = None).
  Definition co_rel (s s' : pst) : Prop := op_rel s s' /\ p_einf s' = p_einf s /\ p_alpha s' = p_alpha s /\ p_CL s' = p_CL s /\ p_CD s' = p_CD s /\
    p_CT s' = p_CT s /\ p_Cl s' = p_Cl s /\ p_CNa s' = p_CNa s /\ p_Cna s' = p_Cna s.
  Definition strong (s s' : pst) : Prop := co_rel s s' /\ p_Vi s' = map (Rmult k) (p_Vi s) /\ p_Vxi s' = map (Rmult k) (p_Vxi s) /\
    p_Vti s' = map (Rmult k) (p_Vti s).
  Lemma flow_weak s s' : flow_rel s s' -> weak s s'. Proof. intros [K _]; exact K. Qed.
  Lemma op_weak s s' : op_rel s s' -> weak s s'. Proof. intros [K _]; exact (flow_weak _ _ K). Qed.
  Lemma co_weak s s' : co_rel s s' -> weak s s'. Proof. intros [K _]; exact (op_weak _ _ K). Qed.
  Lemma strong_weak s s' : strong s s' -> weak s s'. Proof. intros [K _]; exact (co_weak _ _ K). Qed.
  Definition psim {A B} (Pre Post : pst -> pst -> Prop) (RA : A -> B -> Prop) (p : st pst A) (p' : st pst B) : Prop :=
    forall s s', Pre s s' -> match fst (p s), fst (p' s') with
      | Ok a, Ok b => RA a b /\ Post (snd (p s)) (snd (p' s'))
      | Err e, Err e' => e = e' /\ weak (snd (p s)) (snd (p' s'))
      | _, _ => False
      end.
  Lemma psim_bind {A B C D} Pre Mid Post (RA : A -> B -> Prop) (RB : C -> D -> Prop) p p' f f' :
    psim Pre Mid RA p p' -> (forall a b, RA a b -> psim Mid Post RB (f a) (f' b)) -> psim Pre Post RB (sbind p f) (sbind p' f').
  Proof.
    intros P F s s' K. specialize (P s s' K). unfold sbind.
    destruct (p s) as [[a|e] t], (p' s') as [[b|e'] t']; cbn [fst snd] in *; try contradiction.
    - destruct P as [P1 P2]. exact (F a b P1 t t' P2).
    - exact P.
  Qed.

  (** *** The operating state *)
  Lemma set_aero_in a a' : complete a -> state_in m k l a a' -> psim weak flow_rel eq (p_set_aero (Some a)) (p_set_aero (Some a')).
  Proof.
    intros [F1 F2] [K _] s s' W. unfold p_set_aero, opt_truthy.
    assert (T : aero_truthy a = true) by (unfold aero_truthy; destruct (an a); [now contradiction F1|reflexivity]).
    assert (T' : aero_truthy a' = true).
    { unfold aero_truthy. pose proof (K "V_mag") as KV. destruct (an a'); [|reflexivity]. destruct (dget (an a) "V_mag"); [discriminate|now contradiction F1]. }
    rewrite T, T'. unfold dgetd. rewrite !K. destruct (dget (an a) "V_mag") as [V|]; [|now contradiction F1]. destruct (dget (an a) "rho") as [rho|]; [|now contradiction F2].
    cbn [option_map smod fst snd].
    replace (option_map (entry_in m k l "alpha") (dget (an a) "alpha")) with (dget (an a) "alpha") by now destruct (dget (an a) "alpha").
    replace (option_map (entry_in m k l "beta") (dget (an a) "beta")) with (dget (an a) "beta") by now destruct (dget (an a) "beta").
    split; [reflexivity|]. unfold flow_rel, weak, set_flow_p. cbn [p_clock p_ei p_v p_rho p_Vinf]. destruct W as [W1 W2]. auto 10.
  Qed.
  Definition num_in (f : R -> R) (x y : option (pval R)) : Prop :=
    match x, y with
    | Some (PNum x), Some (PNum y) => y = f x
    | Some (PDict _), Some (PDict _) => True
    | None, None => True
    | _, _ => False
    end.
  Definition op_in (d d' : dict (pval R)) : Prop :=
    (d = [] <-> d' = []) /\ num_in (fun x => x) (dget d "J") (dget d' "J") /\ num_in (Rmult (k / l)) (dget d "rot_per_sec") (dget d' "rot_per_sec") /\
    dget d "brake_power" = None /\ dget d' "brake_power" = None /\ dget d "electric_throttle" = None /\ dget d' "electric_throttle" = None.
  Definition local_in (x y : option (pval R)) : Prop :=
    match x, y with
    | None, None => True
    | Some (PNum x), Some (PNum y) => ntruthy y = ntruthy x
    | Some (PDict d), Some (PDict d') => op_in d d'
    | _, _ => False
    end.
  Lemma kl_pos : 0 < k / l.
  Proof. apply Rdiv_lt_0_compat; assumption. Qed.
  Lemma rates a b : k * a / (l * b) = k / l * (a / b).
  Proof. unfold Rdiv. rewrite Rinv_mult. ring. Qed.
  Lemma set_op_in n n' J s s' : flow_rel s s' -> n' = k / l * n -> op_rel (set_op n J None None s) (set_op n' J None None s').
  Proof.
    intros ((W1 & W2) & F1 & F2 & F3) ->. unfold op_rel, flow_rel, weak, set_op.
    cbn [p_clock p_ei p_v p_rho p_Vinf p_n p_J p_power p_throttle]. auto 10.
  Qed.
  Lemma set_op_flow n n' J J' x x' y y' s s' : flow_rel s s' -> flow_rel (set_op n J x y s) (set_op n' J' x' y' s').
  Proof. intros K. exact K. Qed.
  Lemma default_in d : psim flow_rel op_rel eq (default_op d) (default_op (l * d)).
  Proof.
    intros s s' F. unfold default_op, sbind, sget, slift, smod, pydiv. rnum.
    replace (l * d * Rdec 5 1) with (l * (d * Rdec 5 1)) by ring. rewrite (eqb0_in l _ Hl).
    destruct (Reqb (d * Rdec 5 1) 0); cbn [fst snd].
    - split; [reflexivity|]. apply F.
    - split; [reflexivity|]. apply set_op_in; [exact F|]. destruct F as (_ & _ & _ & ->). apply rates.
  Qed.
  Lemma set_prop_in d x y : local_in x y -> psim flow_rel op_rel eq (p_set_prop d x) (p_set_prop (l * d) y).
  Proof.
    intros K. unfold p_set_prop. destruct x as [[x|L]|], y as [[y|L']|]; cbn [local_in] in K; try contradiction.
    - rewrite K. destruct (ntruthy x); [|apply default_in]. intros s s' F. cbn [sbind smod sraise fst snd]. split; [reflexivity|]. apply F.
    - destruct K as (Nil & KJ & Kn & B1 & B2 & T1 & T2).
      destruct L as [|e L].
      { rewrite (proj1 Nil eq_refl). apply default_in. }
      destruct L' as [|e' L']; [discriminate (proj2 Nil eq_refl)|].
      set (D := e :: L) in *. set (D' := e' :: L') in *. clearbody D D'. clear Nil.
      rewrite B1, B2, T1, T2. intros s s' F. pose proof F as ((W1 & W2) & _ & _ & FV). unfold sbind, smod, sget, slift, sraise.
      destruct (dget D "J") as [[J|]|], (dget D' "J") as [[J'|]|]; cbn [num_in] in KJ; try contradiction; cbn [fst snd vnum].
      + subst J'. cbn [set_op p_Vinf]. rewrite FV. rnum. rewrite (eqb0_in k _ Hk).
        destruct (Reqb J 0 || Reqb (p_Vinf s) 0)%bool.
        * destruct (dget D "rot_per_sec") as [[n|]|], (dget D' "rot_per_sec") as [[n'|]|]; cbn [num_in] in Kn; try contradiction; cbn [fst snd vnum].
          -- split; [reflexivity|]. now apply set_op_in.
          -- split; [reflexivity|]. split; assumption.
          -- split; [reflexivity|]. split; assumption.
        * unfold pydiv. rnum. replace (l * d * J) with (l * (d * J)) by ring. rewrite (eqb0_in l _ Hl).
          destruct (Reqb (d * J) 0); cbn [fst snd]; (split; [reflexivity|]).
          -- split; assumption.
          -- apply set_op_in; [exact F|]. apply rates.
      + split; [reflexivity|]. split; assumption.
      + destruct (dget D "rot_per_sec") as [[n|]|], (dget D' "rot_per_sec") as [[n'|]|]; cbn [num_in] in Kn; try contradiction; cbn [fst snd vnum].
        * subst n'. unfold pydiv. cbn [set_op p_Vinf]. rewrite FV. rnum.
          replace (k / l * n * (l * d)) with (k * (n * d)) by (field; lra). rewrite (eqb0_in k _ Hk).
          destruct (Reqb (n * d) 0); cbn [fst snd]; (split; [reflexivity|]).
          -- split; assumption.
          -- rewrite (ratio k _ _ Hk). apply set_op_in; [exact F|reflexivity].
        * split; [reflexivity|]. split; assumption.
        * split; [reflexivity|]. split; assumption.
    - apply default_in.
  Qed.

  (** *** Solving for the induced angles *)
  Lemma coefficients_in E g : psim op_rel co_rel eq (find_coefficients E g) (find_coefficients E (gin g)).
  Proof.
    intros s s' F. pose proof F as (((W1 & W2) & Fl) & Fn & FJ & Fp). unfold find_coefficients.
    cbn [pgeom_in pg_stations pg_k pg_d pg_name]. rewrite FJ, W1, W2. cbv zeta.
    replace (advance_angles (p_J s) (map stin (pg_stations g))) with (advance_angles (p_J s) (pg_stations g)) by (unfold advance_angles; rewrite map_map; now apply map_ext).
    set (einf := advance_angles (p_J s) (pg_stations g)).
    replace (first_guess (map stin (pg_stations g)) einf (p_ei s)) with (first_guess (pg_stations g) einf (p_ei s)) by (unfold first_guess; destruct (existsb ntruthy (p_ei s)); [reflexivity|]; now rewrite map2_map_l).
    set (ei0 := first_guess (pg_stations g) einf (p_ei s)).
    rewrite last_in. destruct (last_of (pg_stations g)) as [sl|]; cbn [option_map]; [|cbn [fst snd]; split; [reflexivity|]; split; assumption].
    change (z_beta (stin sl)) with (z_beta sl). rewrite find_ei_in.
    destruct (find_ei _ _ _ _ _ _ _ _ _) as [[ei clk]|e]; [|cbn [fst snd]; split; [reflexivity|]; split; assumption].
    cbn [fst snd]. rewrite combine_in, map2_map_l. cbn [fst snd].
    change (map2 (fun x => fun y => nsub (nsub (z_beta (stin (fst x))) (snd x)) y) (combine (pg_stations g) einf) ei)
      with (map2 (fun x y => nsub (nsub (z_beta (fst x)) (snd x)) y) (combine (pg_stations g) einf) ei).
    set (alpha := map2 _ _ _). rewrite !get_CL_in, get_CD_in, integrands_in.
    replace (map (@z_zeta R) (map stin (pg_stations g))) with (map (@z_zeta R) (pg_stations g)) by (rewrite map_map; now apply map_ext).
    split; [reflexivity|]. destruct Fl as (Fl1 & Fl2 & Fl3). unfold co_rel, op_rel, flow_rel, weak, set_coeffs.
    cbn [p_clock p_ei p_v p_rho p_Vinf p_n p_J p_power p_throttle p_einf p_alpha p_CL p_CD p_CT p_Cl p_CNa p_Cna].
    repeat match goal with |- _ /\ _ => split end; first [assumption | reflexivity | apply Fp].
  Qed.

  (** *** Forces *)
  Lemma map2_k (f f' : R -> R -> R) : (forall x y, f' (k * x) y = k * f x y) -> forall xs ys, map2 f' (map (Rmult k) xs) ys = map (Rmult k) (map2 f xs ys).
  Proof. intros K. induction xs as [|x xs IH]; intros [|y ys]; cbn [map map2]; auto. now rewrite K, IH. Qed.
  Lemma find_Vi_in g s s' : co_rel s s' -> strong (find_Vi (pg_stations g) s) (find_Vi (pg_stations (gin g)) s').
  Proof.
    intros C. pose proof C as ((((W1 & W2) & _) & Fn & _) & Ce & _). unfold strong.
    assert (V : map2 (fun x ei => p_n s' * n2 * npi * z_r (fst x) * nsin ei / ncos (snd x)) (combine (pg_stations (gin g)) (p_einf s')) (p_ei s')
      = map (Rmult k) (map2 (fun x ei => p_n s * n2 * npi * z_r (fst x) * nsin ei / ncos (snd x)) (combine (pg_stations g) (p_einf s)) (p_ei s))).
    { rewrite W2, Ce, Fn. cbn [pgeom_in pg_stations]. rewrite combine_in, map2_map_l. cbn [fst snd station_in z_r].
      generalize (combine (pg_stations g) (p_einf s)). intros xs. generalize (p_ei s). induction xs as [|x xs IH]; intros [|y ys]; cbn [map map2]; auto.
      rewrite IH. f_equal. rnum. unfold Rdiv. generalize (/ cos (snd x)). intros c. field. lra. }
    split; [exact C|]. unfold find_Vi. cbn [p_Vi p_Vxi p_Vti].
    change (@nmul R Rnum) with Rmult. change (@ndiv R Rnum) with Rdiv. rewrite V, W2, Ce.
    split; [reflexivity|]. split; apply map2_k; intros x y; ring.
  Qed.
  Definition quad_in (x y : vec3 R * vec3 R * R * R) : Prop :=
    y = (vscale q (fst (fst (fst x))), vscale (q * l) (snd (fst (fst x))), q * snd (fst x), q * l * snd x).
  Lemma pow4 n d c : m * c * (k / l * n * (k / l * n)) * fourth (l * d) = q * (c * (n * n) * fourth d).
  Proof. unfold fourth. rnum. field. lra. Qed.
  Lemma pow5 n d c : m * c * (k / l * n * (k / l * n)) * fifth (l * d) = q * l * (c * (n * n) * fifth d).
  Proof. unfold fifth. rnum. field. lra. Qed.
  Lemma quad_eq (a a' b b' : vec3 R) (c c' d d' : R) : a = a' -> b = b' -> c = c' -> d = d' -> (a, b, c, d) = (a', b', c', d').
  Proof. congruence. Qed.
  Lemma resolve_in g cg s s' : strong s s' -> same_res quad_in (resolve g cg s) (resolve (gin g) (vscale l cg) s').
  Proof.
    intros (((((_ & _) & Fv & Fr & _) & Fn & _) & _ & _ & _ & _ & C1 & C2 & C3 & C4) & _). unfold resolve.
    cbn [pgeom_in pg_forward pg_d pg_pos pg_rot]. rewrite Fv, Fr, Fn, C1, C2, C3, C4. cbv zeta.
    destruct (vec_angle (pg_forward g) (vopp (p_v s))) as [angle|e]; cbn [rbind]; [|reflexivity].
    change (@nmul R Rnum) with Rmult. rewrite pow4, pow5. rewrite (sub_l l).
    set (A := p_rho s * (p_n s * p_n s) * fourth (pg_d g)). set (B := p_rho s * (p_n s * p_n s) * fifth (pg_d g)).
    set (N := vcross (vcross (vopp (p_v s)) (pg_forward g)) (pg_forward g)).
    destruct (neqb angle n0).
    - cbn [same_res]. unfold quad_in. cbn [fst snd]. apply quad_eq; try (rnum; ring);
        apply vec_eq; unfold vadd, vscale, vsub, vzero; cbn [vx vy vz]; rnum; ring.
    - set (D := vdivs N _). clearbody D. cbn [same_res]. unfold quad_in. cbn [fst snd]. apply quad_eq; try (rnum; ring);
        apply vec_eq; unfold vadd, vscale, vsub, vzero; cbn [vx vy vz]; rnum; ring.
  Qed.
  Lemma set_forces_strong x y s s' : strong s s' -> strong (set_forces x s) (set_forces y s').
  Proof. destruct x as [[[? ?] ?] ?], y as [[[? ?] ?] ?]. intros K. exact K. Qed.
  Definition calc_rest (g : pgeom R) (cg : vec3 R) : st pst (vec3 R * vec3 R * R * R) :=
    smod (find_Vi (pg_stations g)) ;;;
    s <- sget (fun s => s) ;;
    x <- slift (resolve g cg s) ;;
    smod (set_forces x) ;;;
    sret x.
  Lemma calc_eq E g cg s : p_power s = None -> p_throttle s = None ->
    p_calc_forces E g cg s = sbind (find_coefficients E g) (fun _ => calc_rest g cg) s.
  Proof. intros P T. unfold p_calc_forces. unfold sbind at 1, sget at 1. now rewrite P, T. Qed.
  Lemma calc_in E g cg : psim op_rel strong quad_in (p_calc_forces E g cg) (p_calc_forces E (gin g) (vscale l cg)).
  Proof.
    intros s s' F. pose proof F as (_ & _ & _ & (P1 & P2) & (T1 & T2)). rewrite (calc_eq E g cg s P1 T1), (calc_eq E (gin g) (vscale l cg) s' P2 T2).
    revert s s' F P1 P2 T1 T2. enough (Q : psim op_rel strong quad_in (sbind (find_coefficients E g) (fun _ => calc_rest g cg))
      (sbind (find_coefficients E (gin g)) (fun _ => calc_rest (gin g) (vscale l cg)))) by (intros s s' F _ _ _ _; exact (Q s s' F)).
    eapply psim_bind; [apply coefficients_in|]. intros _ _ _ s s' F. unfold calc_rest, sbind, smod, sget, slift, sret.
    pose proof (find_Vi_in g s s' F) as V. set (t := find_Vi (pg_stations g) s) in *. set (t' := find_Vi (pg_stations (gin g)) s') in *.
    pose proof (resolve_in g cg t t' V) as Q.
    destruct (resolve g cg t) as [x|e], (resolve (gin g) (vscale l cg) t') as [y|e']; cbn [same_res fst snd] in *; try contradiction.
    - split; [exact Q|]. now apply set_forces_strong.
    - split; [exact Q|]. now apply strong_weak.
  Qed.

  (** *** One propeller, all propellers *)
  Lemma dget_rate_in d key : dget (map (rate_in k l) d) key =
    option_map (fun v => match v with PNum x => PNum (if (key =? "rot_per_sec")%string then k / l * x else x) | PDict d => PDict d end) (dget d key).
  Proof.
    induction d as [|[n v] d IH]; [reflexivity|]. cbn [map rate_in fst snd dget]. destruct (String.eqb_spec key n) as [->|]; [reflexivity|exact IH].
  Qed.
  Lemma dget_state_in d key : dget (prop_state_in k l d) key =
    option_map (fun v => match v with PNum x => PNum (if (key =? "rot_per_sec")%string then k / l * x else x) | PDict d => PDict (map (rate_in k l) d) end) (dget d key).
  Proof.
    induction d as [|[n v] d IH]; [reflexivity|]. unfold prop_state_in. cbn [map fst snd].
    destruct v; cbn [rate_in fst snd dget]; (destruct (String.eqb_spec key n) as [->|]; [reflexivity|exact IH]).
  Qed.
  Lemma op_in_of d d' (f : dict (pval R) -> dict (pval R)) : speed_given d -> (d = [] <-> d' = []) ->
    (forall key, dget d' key = option_map (fun v => match v with PNum x => PNum (if (key =? "rot_per_sec")%string then k / l * x else x) | PDict d => PDict (f d) end) (dget d key)) ->
    op_in d d'.
  Proof.
    intros [B T] N G. unfold op_in. rewrite !G, B, T. cbn [option_map]. split; [exact N|].
    split; [destruct (dget d "J") as [[|]|]; cbn [option_map num_in]; auto|].
    split; [destruct (dget d "rot_per_sec") as [[|]|]; cbn [option_map num_in]; auto|]. auto 10.
  Qed.
  Lemma local_state_in ps name : speeds_given ps -> local_in (local_state ps name) (local_state (option_map (prop_state_in k l) ps) name).
  Proof.
    destruct ps as [d|]; [|exact (fun _ => I)]. intros [S1 S2]. destruct d as [|e d]; [exact I|].
    set (D := e :: d) in *. assert (N : D <> []) by discriminate. clearbody D. clear e d. cbn [option_map].
    assert (N' : prop_state_in k l D <> []).
    { destruct D; [contradiction|]. discriminate. }
    unfold local_state. destruct D as [|e d]; [contradiction|]. set (D := e :: d) in *.
    destruct (prop_state_in k l D) as [|e' d'] eqn:Q; [contradiction|]. rewrite <- Q, dget_state_in.
    destruct (dget D name) as [[x|d0]|] eqn:G; cbn [option_map local_in].
    - destruct (String.eqb name "rot_per_sec"); [|reflexivity]. unfold ntruthy. rnum. now rewrite (eqb0_in (k / l) _ kl_pos).
    - apply (op_in_of d0 _ (fun d => d)); [exact (S2 name d0 G)|destruct d0; split; auto; discriminate|]. apply dget_rate_in.
    - apply (op_in_of D _ (map (rate_in k l))); [exact S1| |apply dget_state_in]. split; intros Z; [discriminate|congruence].
  Qed.
  Lemma run_prop_in E cg a a' ps g : complete a -> state_in m k l a a' -> speeds_given ps ->
    psim weak strong quad_in (run_prop E cg (Some a) ps g) (run_prop E (vscale l cg) (Some a') (option_map (prop_state_in k l) ps) (gin g)).
  Proof.
    intros F K S. unfold run_prop. eapply psim_bind; [now apply set_aero_in|]. intros _ _ _. cbn [pgeom_in pg_d pg_name].
    eapply psim_bind; [apply set_prop_in; now apply local_state_in|]. intros _ _ _. apply calc_in.
  Qed.
  Lemma run_props_in E cg a a' ps gs : complete a -> state_in m k l a a' -> speeds_given ps -> forall ss ss', Forall2 weak ss ss' ->
    let r := run_props E cg (Some a) ps gs ss in
    let r' := run_props E (vscale l cg) (Some a') (option_map (prop_state_in k l) ps) (map gin gs) ss' in
    Forall2 weak (snd r) (snd r') /\ List.length (snd r) = List.length ss /\
    match fst r, fst r' with
    | Ok x, Ok y => Forall2 quad_in x y /\ (List.length ss = List.length gs -> Forall2 strong (snd r) (snd r'))
    | Err e, Err e' => e = e'
    | _, _ => False
    end.
  Proof.
    intros F K S. cbv zeta. induction gs as [|g gs IH]; intros ss ss' W; cbn [map run_props].
    { cbn [fst snd]. split; [exact W|]. split; [reflexivity|]. split; [constructor|]. intros L. destruct W; [constructor|discriminate L]. }
    destruct W as [|s s' ss ss' W0 W]; cbn [fst snd].
    { split; [constructor|]. split; [reflexivity|]. split; [constructor|]. intros L. discriminate L. }
    pose proof (run_prop_in E cg a a' ps g F K S s s' W0) as P. specialize (IH ss ss' W).
    destruct (run_prop E cg (Some a) ps g s) as [[x|e] t], (run_prop E (vscale l cg) (Some a') (option_map (prop_state_in k l) ps) (gin g) s') as [[y|e'] t'];
      cbn [fst snd] in P; try contradiction.
    2:{ cbn [fst snd]. destruct P as [-> P]. split; [now constructor|]. split; reflexivity. }
    destruct P as [P1 P2].
    destruct (run_props E cg (Some a) ps gs ss) as [[xs|e] ts], (run_props E (vscale l cg) (Some a') (option_map (prop_state_in k l) ps) (map gin gs) ss') as [[ys|e'] ts'];
      cbn [fst snd List.length] in *; destruct IH as (I1 & I2 & I3); try contradiction.
    - split; [constructor; [now apply strong_weak|exact I1]|]. split; [now rewrite I2|]. destruct I3 as [I3 I4].
      split; [now constructor|]. intros L. injection L as L. constructor; auto.
    - split; [constructor; [now apply strong_weak|exact I1]|]. split; [now rewrite I2|]. exact I3.
  Qed.
  Lemma sums_in x y : Forall2 quad_in x y -> forall a b,
    fold_left (fun v z => vadd v (fst (fst (fst z)))) y (vscale q a) = vscale q (fold_left (fun v z => vadd v (fst (fst (fst z)))) x a) /\
    fold_left (fun v z => vadd v (snd (fst (fst z)))) y (vscale (q * l) b) = vscale (q * l) (fold_left (fun v z => vadd v (snd (fst (fst z)))) x b).
  Proof.
    induction 1 as [|v w x y K Ks IH]; intros a b; cbn [fold_left]; [split; reflexivity|]. rewrite K. cbn [fst snd].
    replace (vadd (vscale q a) (vscale q (fst (fst (fst v))))) with (vscale q (vadd a (fst (fst (fst v))))) by vring.
    replace (vadd (vscale (q * l) b) (vscale (q * l) (snd (fst (fst v))))) with (vscale (q * l) (vadd b (snd (fst (fst v))))) by vring.
    apply IH.
  Qed.
  Lemma last_quad x y : Forall2 quad_in x y -> match last_of x, last_of y with Some a, Some b => quad_in a b | None, None => True | _, _ => False end.
  Proof.
    intros K. unfold last_of. assert (L : List.length y = List.length x) by (induction K; cbn [List.length]; congruence). rewrite L.
    generalize (pred (List.length x)). clear L. induction K as [|a b x y K Ks IH]; intros [|n]; cbn [nth_error]; auto. apply IH.
  Qed.
  Definition total_in (t t' : @prop_total R) : Prop :=
    pt_fm t' = fm_in m k l (pt_fm t) /\ pt_thrust t' = q * pt_thrust t /\ pt_torque t' = q * l * pt_torque t.
  Lemma calc_forces_in E cg a a' ps gs ss ss' : complete a -> state_in m k l a a' -> speeds_given ps -> Forall2 weak ss ss' -> List.length ss = List.length gs ->
    let r := calc_forces E cg (Some a) ps gs ss in
    let r' := calc_forces E (vscale l cg) (Some a') (option_map (prop_state_in k l) ps) (map gin gs) ss' in
    Forall2 weak (snd r) (snd r') /\ List.length (snd r) = List.length gs /\
    match fst r, fst r' with
    | Ok x, Ok y => total_in x y /\ Forall2 strong (snd r) (snd r')
    | Err e, Err e' => e = e'
    | _, _ => False
    end.
  Proof.
    intros F K S W L. cbv zeta. unfold calc_forces.
    pose proof (run_props_in E cg a a' ps gs F K S ss ss' W) as P. cbv zeta in P.
    destruct (run_props E cg (Some a) ps gs ss) as [[xs|e] ts], (run_props E (vscale l cg) (Some a') (option_map (prop_state_in k l) ps) (map gin gs) ss') as [[ys|e'] ts'];
      cbn [fst snd] in *; destruct P as (P1 & P2 & P3); try contradiction.
    2:{ split; [exact P1|]. split; [congruence|exact P3]. }
    destruct P3 as [P3 P4]. specialize (P4 L). pose proof (last_quad xs ys P3) as Q. cbv zeta.
    destruct K as [K _]. unfold dgetd. rewrite !K.
    replace (option_map (entry_in m k l "alpha") (dget (an a) "alpha")) with (dget (an a) "alpha") by now destruct (dget (an a) "alpha").
    replace (option_map (entry_in m k l "beta") (dget (an a) "beta")) with (dget (an a) "beta") by now destruct (dget (an a) "beta").
    destruct (last_of xs) as [[[[? ?] Th] tq]|], (last_of ys) as [[[[? ?] Th'] tq']|]; try contradiction; cbn [fst snd].
    2:{ split; [exact P1|]. split; [congruence|reflexivity]. }
    split; [exact P1|]. split; [congruence|]. split; [|exact P4]. unfold quad_in in Q. cbn [fst snd] in Q. injection Q as _ _ QT Qq.
    unfold total_in. cbn [pt_fm pt_thrust pt_torque]. split; [|split; [exact QT|exact Qq]].
    destruct (sums_in xs ys P3 vzero vzero) as [S1 S2].
    assert (Z : vscale q (vzero : vec3 R) = vzero) by vring. assert (Z' : vscale (q * l) (vzero : vec3 R) = vzero) by vring.
    rewrite Z in S1. rewrite Z' in S2. rewrite S1, S2, make_fm_in. reflexivity.
  Qed.

  (** *** The slipstream *)
  Lemma sqrt_l x : sqrt (l * l * x) = l * sqrt x.
  Proof. rewrite sqrt_mult_alt by nra. rewrite sqrt_square by lra. reflexivity. Qed.
  Lemma development_in s r : development (l * s) (l * r) = development s r.
  Proof.
    unfold development. rnum. replace (l * s * (l * s) + l * r * (l * r)) with (l * l * (s * s + r * r)) by ring.
    rewrite sqrt_l, (ratio l _ _ Hl). reflexivity.
  Qed.
  Notation lk := (fun x : R * R => (l * fst x, k * snd x)).
  Lemma contracted_from_in V kd L : forall r0 rp0 v0,
    contracted_from (k * V) kd (l * r0) (l * rp0) (k * v0) (map lk L) = map (Rmult l) (contracted_from V kd r0 rp0 v0 L).
  Proof.
    induction L as [|[r v] L IH]; intros r0 rp0 v0; cbn [map contracted_from]; [reflexivity|]. cbn [fst snd]. cbv zeta. rnum.
    replace (k * v + k * v0) with (k * (v + v0)) by ring. replace (2 * (k * V) + k * (v + v0)) with (k * (2 * V + (v + v0))) by ring.
    replace (2 * (k * V) + kd * (k * (v + v0))) with (k * (2 * V + kd * (v + v0))) by ring. rewrite (ratio k _ _ Hk).
    set (Kv := (2 * V + (v + v0)) / _).
    replace (l * rp0 * (l * rp0) + (l * r * (l * r) - l * r0 * (l * r0)) * Kv) with (l * l * (rp0 * rp0 + (r * r - r0 * r0) * Kv)) by ring.
    rewrite sqrt_l. rewrite IH. reflexivity.
  Qed.
  Lemma contracted_in V kd L : contracted (k * V) kd (map lk L) = map (Rmult l) (contracted V kd L).
  Proof. destruct L as [|[r v] L]; cbn [map contracted fst snd]; [reflexivity|]. now rewrite contracted_from_in. Qed.
  Lemma interp_from_in hi L : forall x0 y0 x,
    interp_from (l * x0) (k * y0) (map lk L) (k * hi) (l * x) = k * interp_from x0 y0 L hi x.
  Proof.
    induction L as [|[x1 y1] L IH]; intros x0 y0 x; cbn [map interp_from fst snd]; rnum.
    - rewrite (ltb_in l _ _ Hl). destruct (Rltb x0 x); reflexivity.
    - rewrite (leb_in l _ _ Hl). destruct (Rleb x x1); [|apply IH].
      replace (k * y1 - k * y0) with (k * (y1 - y0)) by ring. replace (l * x1 - l * x0) with (l * (x1 - x0)) by ring. rewrite rates.
      unfold Rdiv. generalize (/ (x1 - x0)). intros c. field. lra.
  Qed.
  Lemma interpolate_in L x : interpolate 0 0 (map lk L) (l * x) = k * interpolate 0 0 L x.
  Proof.
    destruct L as [|[x0 y0] L]; cbn [map interpolate fst snd]; [ring|]. rnum. rewrite (ltb_in l _ _ Hl). destruct (Rltb x x0); [ring|].
    replace 0 with (k * 0) at 1 by ring. apply interp_from_in.
  Qed.
  Lemma combine_lk xs : forall ys, combine (map (Rmult l) xs) (map (Rmult k) ys) = map lk (combine xs ys).
  Proof. induction xs as [|x xs IH]; intros [|y ys]; cbn [map combine fst snd]; auto. now rewrite IH. Qed.
  Lemma mapi_k {A} (f g : nat -> A -> R) xs : (forall i x, f i x = k * g i x) -> mapi f xs = map (Rmult k) (mapi g xs).
  Proof.
    intros K. unfold mapi. generalize 0%nat. induction xs as [|x xs IH]; intros i; cbn [mapi_from map]; auto. now rewrite K, IH.
  Qed.
  Lemma mapi_map {A B C} (f : nat -> B -> C) (g : A -> B) xs : mapi f (map g xs) = mapi (fun i x => f i (g x)) xs.
  Proof. unfold mapi. generalize 0%nat. induction xs as [|x xs IH]; intros i; cbn [mapi_from map]; auto. now rewrite IH. Qed.
  Lemma swirl_in rs vt rp : swirl (map (Rmult l) rs) (map (Rmult k) vt) (map (Rmult l) rp) = map (Rmult k) (swirl rs vt rp).
  Proof.
    unfold swirl. rewrite map_length. cbv zeta. set (n := Nat.div (List.length rs) 10). rewrite combine_lk.
    assert (W : map2 (fun x p => n2 * snd x * fst x / p)%num (map lk (combine rs vt)) (map (Rmult l) rp)
                = map (Rmult k) (map2 (fun x p => n2 * snd x * fst x / p)%num (combine rs vt) rp)).
    { generalize (combine rs vt). intros xs. generalize rp. induction xs as [|x xs IH]; intros [|p ps]; cbn [map map2 fst snd]; auto. rewrite IH. f_equal. rnum.
      replace (2 * (k * snd x) * (l * fst x)) with (l * (k * (2 * snd x * fst x))) by ring. rewrite (ratio l _ _ Hl). unfold Rdiv. ring. }
    rewrite W. set (raw := map2 _ (combine rs vt) rp). clearbody raw.
    assert (E1 : nth n (map (Rmult k) raw) n0 = k * nth n raw n0) by (replace (n0 : R) with (k * n0) at 1 by (rnum; ring); apply map_nth).
    assert (E2 : nth n (map (Rmult l) rp) n0 = l * nth n rp n0) by (replace (n0 : R) with (l * n0) at 1 by (rnum; ring); apply map_nth).
    rewrite E1, E2.
    assert (C : combine (map (Rmult k) raw) (map (Rmult l) rp) = map (fun x => (k * fst x, l * snd x)) (combine raw rp)).
    { clear. revert rp. induction raw as [|x xs IH]; intros [|y ys]; cbn [map combine fst snd]; auto. now rewrite IH. }
    rewrite C, mapi_map. cbn [fst snd]. apply mapi_k. intros i x. destruct (Nat.ltb i n); [|reflexivity]. rnum. rewrite rates.
    unfold Rdiv. generalize (/ nth n rp 0). intros c. field. lra.
  Qed.
  Lemma point_velocity_in g s s' w : strong s s' -> point_velocity (gin g) s' (wpoint_in l w) = vscale k (point_velocity g s w).
  Proof.
    intros (C & _ & Vx & Vt). destruct C as (((_ & _ & _ & FV) & _) & _).
    unfold point_velocity.
    cbn [wpoint_in wp_in wp_t wp_dist wp_tangent]. destruct (wp_in w); [|vring].
    cbn [pgeom_in pg_d pg_stations pg_rot]. rewrite FV, Vx, Vt. cbv zeta.
    change (slip_dir (gin g)) with (slip_dir g).
    replace (map (@z_r R) (map stin (pg_stations g))) with (map (Rmult l) (map (@z_r R) (pg_stations g))) by (rewrite !map_map; now apply map_ext).
    set (rs := map (@z_r R) (pg_stations g)).
    replace (nopp (l * wp_t w)) with (l * nopp (wp_t w)) by (rnum; ring). replace (ndiv (l * pg_d g) n2) with (l * ndiv (pg_d g) n2) by (rnum; unfold Rdiv; ring).
    rewrite development_in. set (kd := development _ _).
    rewrite combine_lk, contracted_in. set (rp := contracted _ _ _). rewrite swirl_in.
    replace (map (fun v : R => (v * kd)%num) (map (Rmult k) (p_Vxi s))) with (map (Rmult k) (map (fun v : R => (v * kd)%num) (p_Vxi s))).
    2:{ rewrite !map_map. apply map_ext. intros v. rnum. ring. }
    rewrite !combine_lk. rnum. rewrite !interpolate_in.
    generalize (interpolate 0 0 (combine rp (swirl rs (p_Vti s) rp)) (wp_dist w)) (interpolate 0 0 (combine rp (map (fun v => v * kd) (p_Vxi s))) (wp_dist w)).
    intros a b. generalize (slip_dir g). intros d. apply vec_eq; unfold vadd, vscale; cbn [vx vy vz]; rnum; ring.
  Qed.
  Notation row_in := (fun row : R * vec3 R => (m * fst row, vscale k (snd row))).
  Lemma add_slip_in g s s' rows : strong s s' -> add_slipstream (gin g) s' (map row_in rows) = map row_in (add_slipstream g s rows).
  Proof.
    intros K. unfold add_slipstream. cbn [pgeom_in pg_wing]. destruct (pg_wing g) as [pts|]; cbn [option_map]; [|reflexivity].
    revert pts. induction rows as [|r rows IH]; intros [|w pts]; cbn [map map2 fst snd]; auto. rewrite IH, (point_velocity_in g s s' w K). f_equal. f_equal. vring.
  Qed.
  Lemma slipstreams_in gs : forall ss ss' rows, Forall2 strong ss ss' ->
    slipstreams (map gin gs) ss' (map row_in rows) = map row_in (slipstreams gs ss rows).
  Proof.
    induction gs as [|g gs IH]; intros ss ss' rows K; cbn [map slipstreams]; [reflexivity|].
    destruct K as [|s s' ss ss' K0 K]; [reflexivity|]. rewrite (add_slip_in g s s' rows K0). now apply IH.
  Qed.
  Lemma velocity_field_in a a' n : complete a -> state_in m k l a a' ->
    velocity_field (Some a') n = match velocity_field (Some a) n with Ok r => Ok (map row_in r) | Err e => Err e end.
  Proof.
    intros [F1 F2] [K _]. unfold velocity_field, opt_truthy.
    assert (T : aero_truthy a = true) by (unfold aero_truthy; destruct (an a); [now contradiction F1|reflexivity]).
    assert (T' : aero_truthy a' = true).
    { unfold aero_truthy. pose proof (K "V_mag") as KV. destruct (an a'); [|reflexivity]. destruct (dget (an a) "V_mag"); [discriminate|now contradiction F1]. }
    rewrite T, T'. unfold dgetd. rewrite !K. destruct (dget (an a) "V_mag") as [V|]; [|now contradiction F1]. destruct (dget (an a) "rho") as [rho|]; [|now contradiction F2].
    cbn [option_map].
    replace (option_map (entry_in m k l "alpha") (dget (an a) "alpha")) with (dget (an a) "alpha") by now destruct (dget (an a) "alpha").
    replace (option_map (entry_in m k l "beta") (dget (an a) "beta")) with (dget (an a) "beta") by now destruct (dget (an a) "beta").
    f_equal. change (entry_in m k l "V_mag" V) with (k * V). change (entry_in m k l "rho" rho) with (m * rho).
    set (f := freestream _ _ _). replace (vscale (k * V) f) with (vscale k (vscale V f)) by vring.
    induction n as [|n IH]; [reflexivity|]. cbn [repeat map fst snd]. now rewrite IH.
  Qed.
  Lemma props_solve_in E cg n a a' ps gs ss ss' : complete a -> state_in m k l a a' -> speeds_given ps -> Forall2 weak ss ss' -> List.length ss = List.length gs ->
    let r := props_solve E cg n (Some a) ps gs ss in
    let r' := props_solve E (vscale l cg) n (Some a') (option_map (prop_state_in k l) ps) (map gin gs) ss' in
    Forall2 weak (snd r) (snd r') /\ List.length (snd r) = List.length gs /\
    match fst r, fst r' with
    | Ok x, Ok y => total_in (fst x) (fst y) /\ snd y = option_map (map row_in) (snd x) /\ Forall2 strong (snd r) (snd r')
    | Err e, Err e' => e = e'
    | _, _ => False
    end.
  Proof.
    intros F K S W L. cbv zeta. pose proof (calc_forces_in E cg a a' ps gs ss ss' F K S W L) as P. cbv zeta in P. unfold props_solve, sbind.
    destruct (calc_forces E cg (Some a) ps gs ss) as [[x|e] t], (calc_forces E (vscale l cg) (Some a') (option_map (prop_state_in k l) ps) (map gin gs) ss') as [[y|e'] t'];
      cbn [fst snd] in P; destruct P as (P1 & P2 & P3); try contradiction.
    2:{ cbn [fst snd]. auto. }
    destruct P3 as [P3 P4]. destruct n as [n|]; [|cbn [sret fst snd option_map]; auto 10].
    unfold sbind, slift, sget, sret. rewrite (velocity_field_in a a' n F K).
    destruct (velocity_field (Some a) n) as [rows|e]; cbn [fst snd option_map]; [|auto].
    rewrite (slipstreams_in gs t t' rows P4). auto 10.
  Qed.

  (** *** The table of blade sections *)
  Lemma blade_rows_in name ss : forall a b c d e f g h,
    blade_rows name (map stin ss) a b c d e (map (Rmult k) f) (map (Rmult k) g) (map (Rmult k) h) = map (blade_row_in k l) (blade_rows name ss a b c d e f g h).
  Proof.
    induction ss as [|s ss IH]; intros [|a A] [|b B] [|c C] [|d D] [|e E] [|f F] [|g G] [|h H]; cbn [map blade_rows]; auto.
    rewrite IH. reflexivity.
  Qed.
  Lemma prop_rows_in g s s' : strong s s' -> prop_rows (gin g) s' = map (blade_row_in k l) (prop_rows g s).
  Proof.
    intros [C _]. pose proof (find_Vi_in g s s' C) as (((((W1 & W2) & _) & _) & C1 & C2 & C3 & C4 & _) & V1 & V2 & V3).
    unfold prop_rows. rewrite W2, C1, C2, C3, C4, V1, V2, V3. cbn [pgeom_in pg_name pg_stations]. apply blade_rows_in.
  Qed.
  Lemma prop_distributions_in gs : forall ss ss', Forall2 strong ss ss' ->
    prop_distributions (map gin gs) ss' = map (blade_row_in k l) (prop_distributions gs ss).
  Proof.
    induction gs as [|g gs IH]; intros ss ss' K; [reflexivity|]. cbn [map prop_distributions]. destruct K as [|s s' ss ss' K0 K]; [reflexivity|].
    rewrite map_app, (prop_rows_in g s s' K0), (IH ss ss' K). reflexivity.
  Qed.
  Lemma all_Vi_in gs : forall ss ss', Forall2 strong ss ss' ->
    Forall2 weak (map2 (fun g s => find_Vi (pg_stations g) s) gs ss) (map2 (fun g s => find_Vi (pg_stations g) s) (map gin gs) ss').
  Proof.
    induction gs as [|g gs IH]; intros ss ss' K; cbn [map map2]; [constructor|]. destruct K as [|s s' ss ss' K0 K]; constructor; [|now apply IH].
    apply strong_weak, find_Vi_in. exact (proj1 K0).
  Qed.
End Units.
