(** Concrete airplanes used to show that the hypotheses of the theorems can be met. *)
From Coq Require Import Reals ZArith String Bool Arith Lia Lra List.
From Verif Require Import Base Num RVec Geometry Api Grid Spec_Grid Spec_Geom Grid_facts Grid_R.
Import ListNotations.
Local Open Scope string_scope.

Section Demo.
  Context {T : Type} {N : num_ops T}.

  Definition demo_airfoil_props : dict (pyval T) :=
    [("alpha_L0", VNum (ndec (-37) 3)); ("CL_alpha", VNum (ndec 62 1)); ("CL_max", VNum (ndec 14 1));
     ("Cm_L0", VNum (ndec (-5) 2)); ("Cm_alpha", VNum (ndec 3 2)); ("CD0", VNum (ndec 6 3));
     ("CD0_L", VNum (ndec (-5) 3)); ("CD0_L2", VNum (ndec 1 2))].

  (** A tapered, swept main wing with an aileron/flap surface, winglets attached to
      its tips, and an elevator on a tail. *)
  Definition demo_sym_calls : list (api_call T) :=
    [ CAddWing "main" (None, "tip") "both"
        [("semispan", VInt 4); ("root_chord", VInt 2); ("tip_chord", VInt 1); ("sweep", VInt 10);
         ("dihedral", VInt 5); ("washout", VInt 2); ("mount_angle", VInt 1); ("grid", VInt 3)];
      CAirfoil 0 "root_section" "root" demo_airfoil_props;
      CControl 0 [("percent_span", VList [VNum (ndec 4 1); VNum (ndec 9 1)]);
                  ("percent_chord", VList [VNum (ndec 2 1); VNum (ndec 3 1)]);
                  ("mix", VDict [("aileron", VInt 1); ("flap", VInt 1)])];
      CAddWing "winglet" (Some "main", "tip") "both"
        [("semispan", VInt 1); ("dihedral", VInt 80); ("grid", VInt 2); ("is_main", VInt 0)];
      CAddWing "tail" (None, "tip") "both"
        [("semispan", VInt 1); ("position", VList [VInt (-5); VInt 0; VInt 0]); ("grid", VInt 2);
         ("is_main", VInt 0)];
      CControl 2 [("percent_span", VList [VInt 0; VInt 1]); ("percent_chord", VNum (ndec 3 1));
                  ("mix", VDict [("elevator", VInt 1)]); ("sealed", VInt 0)] ].

  (** The same with a vertical fin, which only has a right segment. *)
  Definition demo_calls : list (api_call T) :=
    demo_sym_calls ++
    [ CAddWing "fin" (None, "tip") "right"
        [("semispan", VInt 1); ("dihedral", VInt 90); ("position", VList [VInt (-5); VInt 0; VInt 0]);
         ("grid", VInt 2); ("is_main", VInt 0)] ].

  Definition demo_sym : airplane T := run_calls demo_sym_calls (new_airplane "demo" None).
  Definition demo : airplane T := run_calls demo_calls (new_airplane "demo" None).

  Lemma demo_sym_built : built demo_sym.
  Proof. apply built_calls. constructor. Qed.
  Lemma demo_built : built demo.
  Proof. apply built_calls. constructor. Qed.
  Lemma demo_all_return : all_return demo_calls (new_airplane "demo" None).
  Proof. unfold demo_calls. simpl. repeat split; eexists; reflexivity. Qed.

  (** The same airplanes, evaluated. *)
  Definition demo_sym_val : airplane T := Eval cbv -[nint ndec n0 n1 vzero] in demo_sym.
  Definition demo_val : airplane T := Eval cbv -[nint ndec n0 n1 vzero] in demo.
  Lemma demo_sym_eq : demo_sym = demo_sym_val.
  Proof. vm_compute. reflexivity. Qed.
  Lemma demo_eq : demo = demo_val.
  Proof. vm_compute. reflexivity. Qed.

  Definition positioned (pl : airplane T) (sg : segment T) : Prop :=
    sg_num sg <> O /\
    (exists L, seg_position (position_fuel pl) pl sg "left_tip" = Ok L) /\
    (exists R', seg_position (position_fuel pl) pl sg "right_tip" = Ok R').
  Definition is_ok {A} (r : res A) : bool := match r with Ok _ => true | Err _ => false end.
  Definition positionedb (pl : airplane T) (sg : segment T) : bool :=
    negb (Nat.eqb (sg_num sg) 0) &&
    (is_ok (seg_position (position_fuel pl) pl sg "left_tip") &&
     is_ok (seg_position (position_fuel pl) pl sg "right_tip")).
  Lemma positioned_all pl : forallb (positionedb pl) (wingsegments pl) = true ->
    Forall (positioned pl) (wingsegments pl).
  Proof.
    rewrite forallb_forall, Forall_forall. intros H s Hs. specialize (H s Hs).
    unfold positionedb in H. apply andb_prop in H. destruct H as [H1 H2].
    apply andb_prop in H2. destruct H2 as [H2 H3].
    unfold positioned. destruct (seg_position _ pl s "left_tip"); [|discriminate].
    destruct (seg_position _ pl s "right_tip"); [|discriminate].
    repeat split; eauto. apply Nat.eqb_neq. now destruct (Nat.eqb _ _).
  Qed.
  Lemma demo_positioned : Forall (positioned demo_val) (wingsegments demo_val).
  Proof. apply positioned_all. vm_compute. reflexivity. Qed.
  Lemma demo_sym_positioned : Forall (positioned demo_sym_val) (wingsegments demo_sym_val).
  Proof. apply positioned_all. vm_compute. reflexivity. Qed.
  Definition demo_controls (pl : airplane T) : list (T * T) :=
    map (fun sg => (cs_span_root (sg_control sg), cs_span_tip (sg_control sg))) (wingsegments pl).
  Lemma demo_controls_val :
    demo_controls demo_val
    = [(ndec 4 1, ndec 9 1); (ndec 4 1, ndec 9 1); (n0, n1); (n0, n1);
       (nint 0, nint 1); (nint 0, nint 1); (n0, n1)].
  Proof. vm_compute. reflexivity. Qed.
  Lemma demo_sym_controls_val :
    demo_controls demo_sym_val
    = [(ndec 4 1, ndec 9 1); (ndec 4 1, ndec 9 1); (n0, n1); (n0, n1);
       (nint 0, nint 1); (nint 0, nint 1)].
  Proof. vm_compute. reflexivity. Qed.
End Demo.

Local Open Scope R_scope.

Lemma block_ok cosine (pl : airplane R) sg :
  positioned pl sg ->
  cs_span_tip (sg_control sg) <> cs_span_root (sg_control sg) ->
  exists b, segment_block cosine pl sg = Ok b.
Proof.
  intros (Hn & (L & HL) & (R' & HR)) Hne. unfold segment_block.
  replace (cosine && (sg_num sg =? 0)%nat) with false
    by (symmetry; apply Nat.eqb_neq in Hn; rewrite Hn; apply andb_false_r).
  rewrite HL, HR. cbn [rbind].
  destruct (seg_control_span sg) as [a b] eqn:E.
  replace (neqb _ _) with false; [eauto|].
  symmetry. apply Reqb_false. unfold seg_control_span in E. rnum.
  destruct (sg_side sg); inversion E; subst; lra.
Qed.

Lemma grid_ok cosine (pl : airplane R) :
  Forall (positioned pl) (wingsegments pl) ->
  Forall (fun p => snd p <> fst p) (demo_controls pl) ->
  exists g, make_grid cosine pl = Ok g.
Proof.
  intros Hp Hc.
  assert (exists bs, Forall2 (fun sg b => segment_block cosine pl sg = Ok b) (wingsegments pl) bs)
    as [bs Hbs]; [|eapply make_grid_succeeds; eauto].
  unfold demo_controls in Hc. revert Hp Hc. induction (wingsegments pl) as [|s l IH]; intros Hp Hc.
  - exists []. constructor.
  - inversion Hp; subst. simpl in Hc. inversion Hc; subst.
    destruct IH as [bs Hbs]; auto.
    destruct (block_ok cosine pl s) as [b Hb]; auto.
    exists (b :: bs). constructor; auto.
Qed.

Lemma demo_grid cosine : exists g, make_grid cosine (demo (T := R)) = Ok g.
Proof.
  rewrite demo_eq. apply grid_ok; [apply demo_positioned|]. rewrite demo_controls_val.
  repeat constructor; cbn [fst snd]; rnum; unfold Rdec; simpl; lra.
Qed.
Lemma demo_sym_grid cosine : exists g, make_grid cosine (demo_sym (T := R)) = Ok g.
Proof.
  rewrite demo_sym_eq. apply grid_ok; [apply demo_sym_positioned|]. rewrite demo_sym_controls_val.
  repeat constructor; cbn [fst snd]; rnum; unfold Rdec; simpl; lra.
Qed.
