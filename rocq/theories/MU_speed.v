(** Other airspeeds and densities for the same object (C86): C72 with lengths unchanged. *)
From Coq Require Import Reals ZArith String Bool Arith Lia Lra List.
From Verif Require Import Base Num RVec Geometry Api Grid LLModel PropModel Spec_Grid Spec_Geom Spec_LL MU Spec_MU Spec_Units LL_units Prop_units MU_units.
Import ListNotations.
Local Open Scope string_scope.
Local Open Scope R_scope.

Lemma scale1 (v : vec3 R) : vscale 1 v = v.
Proof. apply vec_eq; cbn [vscale vx vy vz]; rnum; ring. Qed.
Lemma map_fix {A} (f : A -> A) l : (forall x, f x = x) -> map f l = l.
Proof. intros H. induction l as [|x l IH]; cbn [map]; [reflexivity|]. now rewrite H, IH. Qed.
Lemma segment_1 s : segment_in 1 s = s.
Proof. unfold segment_in. rewrite scale1, !Rmult_1_l. destruct s. reflexivity. Qed.
Lemma sec_1 s : sec_in 1 s = s.
Proof. unfold sec_in. rewrite !scale1, !Rmult_1_l. destruct s. reflexivity. Qed.
Lemma grid_1 g : grid_in 1 g = g.
Proof. unfold grid_in. rewrite (map_fix _ _ segment_1), (map_fix _ _ sec_1), !Rmult_1_l. destruct g. reflexivity. Qed.
Lemma refs_1 r : refs_in 1 r = r.
Proof. unfold refs_in. rewrite !Rmult_1_l. destruct r. reflexivity. Qed.
Lemma station_1 s : station_in 1 s = s.
Proof. unfold station_in. rewrite !Rmult_1_l. destruct s. reflexivity. Qed.
Lemma wpoint_1 w : wpoint_in 1 w = w.
Proof. unfold wpoint_in. rewrite !Rmult_1_l. destruct w. reflexivity. Qed.
Lemma pgeom_1 g : pgeom_in 1 (pg_units g) g = g.
Proof.
  unfold pgeom_in. rewrite scale1, (map_fix _ _ station_1), !Rmult_1_l. destruct g as [? ? ? ? ? ? ? ? ? ? ? w ?]. cbn.
  destruct w as [w|]; cbn [option_map]; [rewrite (map_fix _ _ wpoint_1)|]; reflexivity.
Qed.
Lemma make_pgeom_units E u pts p g : make_pgeom (T := R) E u pts p = Ok g -> pg_units g = u.
Proof.
  unfold make_pgeom. destruct (zetas p) as [zs|]; [|discriminate]. cbn [rbind]. cbv zeta. destruct (PropModel.coefficients p zs) as [c|]; [|discriminate]. cbn [rbind].
  destruct (PropModel.pitch E p) as [b|]; [|discriminate]. cbn [rbind]. destruct (PropModel.chord E p zs) as [cb|]; [|discriminate]. cbn [rbind].
  destruct (PropModel.make_motor p) as [mo|]; [|discriminate]. cbn [rbind]. intros Hg.
  apply (f_equal (fun o => match o with Ok y => pg_units y | Err _ => pg_units g end)) in Hg. cbn [pg_units] in Hg. now symmetry.
Qed.
Lemma rmap_all {A B} (f : A -> res B) (P : B -> Prop) : (forall x y, f x = Ok y -> P y) -> forall l r, rmap f l = Ok r -> Forall P r.
Proof.
  intros H. induction l as [|x l IH]; cbn [rmap]; intros r K; [injection K as <-; constructor|].
  destruct (f x) as [y|] eqn:Ef; [|discriminate]. cbn [rbind] in K. destruct (rmap f l) as [ys|]; [|discriminate]. injection K as <-. constructor; eauto.
Qed.
Lemma machup_1 E pl X : make_machup E pl = Ok X -> exists u, machup_in 1 u X = X.
Proof.
  intros K.
  assert (P : exists u, Forall (fun g => pg_units g = u) (mm_props X)).
  { unfold make_machup in K. destruct (match a_wings pl with [] => _ | _ => _ end) as [og|]; [|discriminate]. cbn [rbind] in K. cbv zeta in K.
    destruct (a_props pl) as [|e ps] eqn:Ep.
    - cbn [rbind] in K. injection K as <-. exists None. constructor.
    - destruct (make_props _ _ _) as [gs|] eqn:Em; [|discriminate]. cbn [rbind] in K. injection K as <-. cbn [mm_props].
      unfold make_props in Em. destruct (get_units pl) as [u|e'].
      + exists u. eapply rmap_all; [|exact Em]. intros x y H. cbn [rbind] in H. exact (make_pgeom_units _ _ _ _ _ H).
      + exists None. eapply rmap_all; [|exact Em]. intros x y H. discriminate H. }
  destruct P as (u & P). exists u. unfold machup_in. destruct X as [og rf gs pts cg]. cbn [mm_grid mm_refs mm_props mm_points mm_cg] in *. rewrite scale1.
  assert (Eg : map (pgeom_in 1 u) gs = gs).
  { clear K. induction P as [|g gs Hg P IH]; cbn [map]; [reflexivity|]. rewrite IH, <- Hg, pgeom_1. reflexivity. }
  rewrite Eg. destruct og as [g|], rf as [r|]; cbn [option_map]; rewrite ?grid_1, ?refs_1; reflexivity.
Qed.
Lemma speed_free m k E pl X rs rs' : 0 < m -> 0 < k -> exact_solver (me_lsolve E) -> make_machup E pl = Ok X ->
  Forall2 (request_in m k 1) rs rs' ->
  session E X (init_mstate X) rs' = map (same_outcome m k 1) (session E X (init_mstate X) rs).
Proof.
  intros Hm Hk He HX K. destruct (machup_1 E pl X HX) as (u & Eu).
  rewrite <- Eu at 1 2. apply (session_in m k 1 u Hm Hk ltac:(lra) E X He (machup_shape E pl X HX) rs rs' K). apply init_in.
Qed.
