(** The outline and the whole drawing over the real numbers (C59, C62-C64). *)
From Coq Require Import Reals ZArith String Ascii Bool Arith List Lra Lia Permutation Sorted.
From Verif Require Import Base Num RVec Geometry Grid Spec_Grid Grid_R Grid_facts Grid_thm PropModel MU
     Stl Spec_Stl Stl_thm Stl_thm2 Stl_R.
Import ListNotations.
Local Open Scope R_scope.

(** *** Digits *)
Lemma float_digit a : (a < 10)%nat ->
  py_float (String (decimal_digit a) EmptyString) = Some (Z.of_nat a, 0%Z).
Proof. intros H. do 10 (destruct a as [|a]; [reflexivity|]). lia. Qed.
Lemma float_digits a b : (a < 10)%nat -> (b < 10)%nat ->
  py_float (String (decimal_digit a) (String (decimal_digit b) EmptyString)) = Some (Z.of_nat (10 * a + b), 0%Z).
Proof.
  intros Ha Hb. do 10 (destruct a as [|a]; [do 10 (destruct b as [|b]; [reflexivity|]); lia|]). lia.
Qed.

Lemma outline_digits d f : four_digits d f ->
  outline (T := R) d 50
  = Ok (map (fun i => outline_point (pf_camber f) (pf_at f) (pf_thick f) (linspace (- PI) PI 50 i)) (seq 0 50)).
Proof.
  intros H. destruct H as [a b c e Ha Hb Hc He]. unfold outline, char_at, to_float.
  cbn [String.length Nat.ltb Nat.leb rbind substring].
  rewrite (float_digit a Ha), (float_digit b Hb), (float_digits c e Hc He). cbn [rbind].
  f_equal. apply map_ext. intros i. cbn [pf_camber pf_at pf_thick].
  assert (D : forall k, @ndec R Rnum (Z.of_nat k) 0 = INR k).
  { intros k. rnum. unfold Rdec. rewrite <- INR_IZR_INZ. change (10 ^ 0)%Z with 1%Z. field. }
  rewrite !D. reflexivity.
Qed.

Lemma linspace_angle j : (j < 50)%nat -> linspace (T := R) (- PI) PI 50 j = outline_angle j.
Proof.
  intros H. unfold linspace, outline_angle. cbn [Nat.leb].
  destruct (Nat.eqb_spec (S j) 50) as [E|E].
  - replace j with 49%nat by lia. replace (INR 49) with 49 by (simpl; ring). field.
  - rnum. rewrite <- INR_IZR_INZ. replace (IZR (Z.of_nat (Nat.pred 50))) with 49 by reflexivity. field.
Qed.
Lemma angle_sign j : (j < 50)%nat -> nsign (outline_angle j) = if Nat.ltb j 25 then -1 else 1.
Proof.
  intros H. pose proof PI_RGT_0 as HP. unfold nsign, outline_angle. rnum.
  destruct (Nat.ltb_spec j 25) as [E|E].
  - assert (INR j <= 24) by (replace 24 with (INR 24) by (simpl; ring); apply le_INR; lia).
    assert (2 * PI * INR j / 49 < PI) by (apply Rmult_lt_reg_r with 49; [lra|]; unfold Rdiv; rewrite Rmult_assoc, Rinv_l by lra; nra).
    rewrite (proj2 (Rltb_false _ _)) by lra. rewrite (proj2 (Rltb_true _ _)) by lra. lra.
  - assert (25 <= INR j) by (replace 25 with (INR 25) by (simpl; ring); apply le_INR; lia).
    assert (PI < 2 * PI * INR j / 49) by (apply Rmult_lt_reg_r with 49; [lra|]; unfold Rdiv; rewrite Rmult_assoc, Rinv_l by lra; nra).
    rewrite (proj2 (Rltb_true _ _)) by lra. reflexivity.
Qed.

Lemma Reqb_dec x y : Reqb x y = if Req_EM_T x y then true else false.
Proof. reflexivity. Qed.

Lemma outline_surface f theta :
  drawn_as (surface_point f (nsign theta) ((1 - cos theta) / 2))
           (outline_point (pf_camber f) (pf_at f) (pf_thick f) theta).
Proof.
  destruct f as [m p t]. unfold outline_point. cbn [pf_camber pf_at pf_thick]. rnum. cbv zeta.
  replace (Rdec 5 1 * (1 - cos theta)) with ((1 - cos theta) / 2) by (unfold Rdec; cbn; field).
  set (x := (1 - cos theta) / 2).
  assert (HT : half_thickness t x = thickness (MkProfile m p t) x).
  { unfold half_thickness, thickness. rnum. unfold Rdec. cbn [pf_thick]. change (10 ^ 4)%Z with 10000%Z. field. }
  assert (HY : (if Reqb m 0 || Reqb p 0 then 0 else camber m p x) = mean_line (MkProfile m p t) x).
  { unfold mean_line, camber. cbn [pf_camber pf_at]. rewrite !Reqb_dec. rnum. unfold Rltb.
    destruct (Req_EM_T m 0), (Req_EM_T p 0); cbn [orb]; auto.
    destruct (Rlt_dec x p); auto. }
  assert (HS : (if Reqb m 0 || Reqb p 0 then 0 else camber_slope m p x) = drawn_slope (MkProfile m p t) x).
  { unfold drawn_slope, camber_slope. cbn [pf_camber pf_at]. rewrite !Reqb_dec. rnum. unfold Rltb.
    destruct (Req_EM_T m 0), (Req_EM_T p 0); cbn [orb]; auto.
    all: destruct (Rlt_dec x p); auto. }
  rewrite HT, HY, HS. unfold surface_point, drawn_as. cbn [fst snd].
  split; [|ring].
  replace (Rdec 25 2) with (1 / 4) by (unfold Rdec; cbn; field). ring.
Qed.

Lemma outline_shape d f : four_digits d f ->
  exists l, outline (T := R) d 50 = Ok l /\ List.length l = 50%nat /\
            forall j, (j < 50)%nat -> drawn_as (shape f j) (nth j l (0, 0)).
Proof.
  intros H. eexists. split; [apply outline_digits; eauto|]. split; [now rewrite map_length, seq_length|].
  intros j Hj. rewrite nth_indep with (d' := outline_point (pf_camber f) (pf_at f) (pf_thick f) (linspace (- PI) PI 50 0))
    by (rewrite map_length, seq_length; lia).
  rewrite map_nth with (f := fun i => outline_point (pf_camber f) (pf_at f) (pf_thick f) (linspace (- PI) PI 50 i)).
  rewrite seq_nth by lia. rewrite linspace_angle by lia. cbn [Nat.add].
  unfold shape. rewrite <- angle_sign by auto. apply outline_surface.
Qed.

(** *** C59: the slope of the mean line *)
Lemma slope_ahead f x : 0 < pf_at f < 1 -> x < pf_at f ->
  derivable_pt_lim (mean_line f) x (drawn_slope f x).
Proof.
  intros Hp Hx. destruct f as [m p t]. cbn [pf_at] in *. unfold mean_line, drawn_slope. cbn [pf_camber pf_at].
  destruct (Req_EM_T m 0) as [|Hm]; [apply (derivable_pt_lim_const 0)|].
  destruct (Req_EM_T p 0) as [|Hp0]; [lra|].
  destruct (Rlt_dec x p); [|lra].
  assert (HD : derivable_pt_lim (fun y => m / (p * p) * (2 * p * y - y * y)) x (2 * m / (p * p) * (p - x))).
  { replace (2 * m / (p * p) * (p - x)) with (m / (p * p) * (2 * p * 1 - (1 * x + x * 1))) by (field; lra).
    apply (derivable_pt_lim_scal (fun y => 2 * p * y - y * y)).
    apply (derivable_pt_lim_minus (fun y => 2 * p * y) (fun y => y * y)).
    - apply (derivable_pt_lim_scal (fun y => y)). apply derivable_pt_lim_id.
    - apply (derivable_pt_lim_mult (fun y => y) (fun y => y)); apply derivable_pt_lim_id. }
  intros eps He. destruct (HD eps He) as [d Hd].
  assert (Hmin : 0 < Rmin d (p - x)) by (apply Rmin_pos; [apply cond_pos|lra]).
  exists (mkposreal _ Hmin). intros h Hh Hh'. cbn [pos] in Hh'.
  assert (Rabs h < d) by (eapply Rlt_le_trans; [exact Hh'|apply Rmin_l]).
  assert (Rabs h < p - x) by (eapply Rlt_le_trans; [exact Hh'|apply Rmin_r]).
  destruct (Rlt_dec (x + h) p) as [|N]; [destruct (Rlt_dec x p); [apply Hd; auto|lra]|].
  exfalso. apply N. pose proof (Rle_abs h). lra.
Qed.
Lemma slope_aft f x : 0 < pf_at f < 1 -> pf_at f < x ->
  derivable_pt_lim (mean_line f) x (2 * drawn_slope f x).
Proof.
  intros Hp Hx. destruct f as [m p t]. cbn [pf_at] in *. unfold mean_line, drawn_slope. cbn [pf_camber pf_at].
  destruct (Req_EM_T m 0) as [|Hm]; [rewrite Rmult_0_r; apply (derivable_pt_lim_const 0)|].
  destruct (Req_EM_T p 0) as [|Hp0]; [lra|].
  destruct (Rlt_dec x p); [lra|].
  assert (HD : derivable_pt_lim (fun y => m / ((1 - p) * (1 - p)) * (1 - 2 * p + 2 * p * y - y * y)) x
                 (2 * (m / ((1 - p) * (1 - p)) * (p - x)))).
  { replace (2 * (m / ((1 - p) * (1 - p)) * (p - x)))
      with (m / ((1 - p) * (1 - p)) * (0 + 2 * p * 1 - (1 * x + x * 1))) by (field; lra).
    apply (derivable_pt_lim_scal (fun y => 1 - 2 * p + 2 * p * y - y * y)).
    apply (derivable_pt_lim_minus (fun y => 1 - 2 * p + 2 * p * y) (fun y => y * y)).
    - apply (derivable_pt_lim_plus (fun y => 1 - 2 * p) (fun y => 2 * p * y)); [apply derivable_pt_lim_const|].
      apply (derivable_pt_lim_scal (fun y => y)). apply derivable_pt_lim_id.
    - apply (derivable_pt_lim_mult (fun y => y) (fun y => y)); apply derivable_pt_lim_id. }
  intros eps He. destruct (HD eps He) as [d Hd].
  assert (Hmin : 0 < Rmin d (x - p)) by (apply Rmin_pos; [apply cond_pos|lra]).
  exists (mkposreal _ Hmin). intros h Hh Hh'. cbn [pos] in Hh'.
  assert (Rabs h < d) by (eapply Rlt_le_trans; [exact Hh'|apply Rmin_l]).
  assert (Rabs h < x - p) by (eapply Rlt_le_trans; [exact Hh'|apply Rmin_r]).
  destruct (Rlt_dec (x + h) p) as [N|]; [|destruct (Rlt_dec x p); [lra|apply Hd; auto]].
  exfalso. pose proof (Rle_abs (- h)). rewrite Rabs_Ropp in *. lra.
Qed.

(** *** C64: the trailing edge is open *)
Lemma edge_gap f : 0 <= pf_thick f -> pf_at f < 1 ->
  let first := shape f 0 in let last := shape f 49 in
  (fst last - fst first) * (fst last - fst first) + (snd last - snd first) * (snd last - snd first)
  = (21 / 1000 * pf_thick f) * (21 / 1000 * pf_thick f).
Proof.
  intros Ht Hp. cbv zeta. unfold shape, surface_point.
  change (Nat.ltb 0 25) with true. change (Nat.ltb 49 25) with false. cbv iota.
  assert (A0 : outline_angle 0 = - PI) by (unfold outline_angle; simpl INR; field).
  assert (A49 : outline_angle 49 = PI).
  { unfold outline_angle. replace (INR 49) with 49 by (simpl; ring). field. }
  rewrite A0, A49, cos_neg, cos_PI. replace ((1 - -1) / 2) with 1 by field.
  set (phi := atan (drawn_slope f 1)). cbn [fst snd].
  assert (HT : thickness f 1 = 105 / 10000 * pf_thick f).
  { unfold thickness. rewrite sqrt_1. field. }
  rewrite HT. pose proof (sin2_cos2 phi) as E. unfold Rsqr in E.
  set (t := pf_thick f) in *.
  match goal with |- ?l = ?r => transitivity (r * (sin phi * sin phi + cos phi * cos phi)) end.
  - field.
  - rewrite E. ring.
Qed.
