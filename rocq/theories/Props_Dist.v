(** The distributions returned and written by MachUp.distributions (C71).
    Vocabulary: Spec_Dist.v, Spec_MU.v, Spec_LL.v.

    [distributions E X ps k f w = (r, w')]: the call with the dictionaries and files of [w],
    file name [f]; [k]: see C71_json_file_with_propellers. *)
From Coq Require Import Reals ZArith String Bool Arith Lia Lra List.
From Verif Require Import Base Num RVec Geometry Api Grid LLModel PropModel Spec_Grid Spec_Geom Spec_LL Spec_Prop MU Spec_MU Spec_Dist
     LL_state LL_R LL_solve LL_thm Linalg Linalg2 Demo Demo_LL Prop_state Prop_thm6 Prop_thm7 MU_thm MU_thm3 MU_thm13 MU_thm15 MU_thm16
     MU_thm18 Demo_MU Demo_Dist.
Import ListNotations.
Local Open Scope string_scope.
Local Open Scope R_scope.

(** *** C71 *)
(** One row per wing section, in the order of the grid, and the forces listed add up to the
    inviscid force of the solve. *)
Theorem C71_wing_table :
  forall E (pl : airplane R) X ps k f w wings blades w',
    exact_solver (me_lsolve E) -> make_machup E pl = Ok X -> reached E X (w_model w) ->
    distributions E X ps k f w = (Ok (wings, blades), w') ->
    (a_wings pl = [] -> wings = []) /\
    (a_wings pl <> [] -> exists g r res, make_grid true pl = Ok g /\ mm_refs X = Some r /\
       Forall2 (lists_section (r_long r)) (g_sections g) wings /\
       l_results (m_ll (w_model w')) = Some res /\
       force_of (r_inviscid res) = vtotal (fun row => d_force (wr_row row)) wings).
Proof. exact wing_table_lemma. Qed.
Print Assumptions C71_wing_table.
(** One row per blade node, node after node and propeller after propeller, each propeller
    built in the units of the airplane.  The wing points [wp] do not enter the table. *)
Theorem C71_blade_table :
  forall E (pl : airplane R) X ps k f w wings blades w',
    make_machup E pl = Ok X -> reached E X (w_model w) ->
    distributions E X ps k f w = (Ok (wings, blades), w') ->
    exists gs tables, Forall2 (fun p g => pg_name g = pr_name p /\ exists u wp, get_units pl = Ok u /\ make_pgeom (me_prop E) u wp p = Ok g) (map snd (a_props pl)) gs /\
      blades = concat tables /\
      Forall2 (fun g rows => Forall2 (lists_node (pg_name g)) (pg_stations g) rows) gs tables.
Proof. exact blade_table_lemma. Qed.
Print Assumptions C71_blade_table.
(** The call solves once, like [solve] with the same dictionaries, and returns whenever that
    does; a call that raises writes nothing. *)
Theorem C71_like_solve :
  forall T (N : num_ops T) E ps (pl : airplane T) X k f (w : world T (mstate T)), make_machup E pl = Ok X ->
    let v := mu_solve E X ps None w in let w' := snd (distributions E X ps k f w) in
    w_aero w' = w_aero (snd v) /\ w_ctl w' = w_ctl (snd v) /\ w_log w' = w_log (snd v) /\
    m_ll (w_model w') = m_ll (w_model (snd v)) /\
    match fst v with
    | Ok _ => exists wings blades, fst (distributions E X ps k f w) = Ok (wings, blades)
    | Err e => fst (distributions E X ps k f w) = Err e /\ w_files w' = w_files w
    end.
Proof. exact @like_solve. Qed.
Print Assumptions C71_like_solve.
(** Without a file name nothing is written; the tables do not depend on it. *)
Theorem C71_no_file :
  forall T (N : num_ops T) E ps (pl : airplane T) X k f (w : world T (mstate T)) wings blades w', make_machup E pl = Ok X ->
    distributions E X ps k f w = (Ok (wings, blades), w') ->
    (f = None \/ f = Some "" -> w_files w' = w_files w) /\
    (forall k' f', fst (distributions E X ps k' f' w) = Ok (wings, blades)).
Proof. exact @no_file. Qed.
Print Assumptions C71_no_file.
(** A text file holds the tables returned with the names cut to 18 characters, the wing table
    first.  With wings the file is replaced; without wings the propeller table is appended
    to what the file contained before (a finding). *)
Theorem C71_text_file :
  forall T (N : num_ops T) E ps (pl : airplane T) X k n (w : world T (mstate T)) wings blades w', make_machup E pl = Ok X ->
    n <> "" -> ~ json_name n -> distributions E X ps k (Some n) w = (Ok (wings, blades), w') ->
    exists shown shown', Forall2 printed_section wings shown /\ Forall2 printed_node blades shown' /\
      (a_wings pl <> [] -> a_props pl = [] -> w_files w' = dset (w_files w) n [F_wings shown]) /\
      (a_wings pl <> [] -> a_props pl <> [] -> w_files w' = dset (w_files w) n [F_wings shown; F_blades shown']) /\
      (a_wings pl = [] -> a_props pl <> [] ->
         w_files w' = dset (w_files w) n (contents (w_files w) n ++ [F_blades shown'])%list).
Proof. exact @text_file. Qed.
Print Assumptions C71_text_file.
(** A name ending in "json": the text is wrapped in one JSON object if there are no
    propellers... *)
Theorem C71_json_file_of_wings :
  forall T (N : num_ops T) E ps (pl : airplane T) X k n (w : world T (mstate T)) wings blades w', make_machup E pl = Ok X ->
    json_name n -> a_wings pl <> [] -> a_props pl = [] -> distributions E X ps k (Some n) w = (Ok (wings, blades), w') ->
    exists shown, Forall2 printed_section wings shown /\ w_files w' = dset (w_files w) n [F_wrapped [F_wings shown]].
Proof. exact @json_file_wings. Qed.
Print Assumptions C71_json_file_of_wings.
(** ... and with propellers the file is not a JSON object: the last row written is still in
    the buffer of the file object ([k] rows have left it) when the text is read back and
    wrapped, and follows the closing brace. *)
Theorem C71_json_file_with_propellers :
  forall T (N : num_ops T) E ps (pl : airplane T) X k n (w : world T (mstate T)) wings blades w', make_machup E pl = Ok X ->
    json_name n -> a_props pl <> [] -> distributions E X ps k (Some n) w = (Ok (wings, blades), w') ->
    (k < List.length blades)%nat ->
    exists shown shown', Forall2 printed_section wings shown /\ Forall2 printed_node blades shown' /\
      skipn k shown' <> [] /\
      (a_wings pl <> [] -> w_files w' =
         dset (w_files w) n [F_wrapped [F_wings shown; F_blades (firstn k shown')]; F_blades (skipn k shown')]) /\
      (a_wings pl = [] -> w_files w' =
         dset (w_files w) n [F_wrapped (contents (w_files w) n ++ [F_blades (firstn k shown')])%list; F_blades (skipn k shown')]) /\
      forall q, contents (w_files w') n <> [F_wrapped q].
Proof. exact @json_file_props. Qed.
Print Assumptions C71_json_file_with_propellers.

(** wings: the flyer *)
Example C71_applies : forall k, exists wings blades w',
  distributions gauss_env flyer_machup None k (Some "table.txt") (MkW (Some (straight 10 1)) None (init_mstate flyer_machup) [] []) =
    (Ok (wings, blades), w') /\ exact_solver (me_lsolve gauss_env) /\ make_machup gauss_env flyer = Ok flyer_machup /\
  reached gauss_env flyer_machup (init_mstate flyer_machup) /\ List.length wings = 2%nat /\ ~ json_name "table.txt" /\ a_props (flyer (T := R)) = [].
Proof.
  intros k. destruct (flyer_solves 10 1 None None [] ltac:(lra)) as (res & w' & K & _).
  set (w := MkW _ _ _ _ _) in *.
  assert (Em : make_machup gauss_env flyer = Ok flyer_machup) by exact (flyer_made gauss_env).
  destruct (like_solve gauss_env None flyer flyer_machup k (Some "table.txt") w Em) as (_ & _ & _ & _ & L). rewrite K in L. cbn [fst] in L.
  destruct L as (wings & blades & L).
  destruct (distributions gauss_env flyer_machup None k (Some "table.txt") w) as [r v] eqn:D. cbn [fst] in L. subst r.
  exists wings, blades, v. split; [reflexivity|]. split; [exact gauss_exact|]. split; [exact Em|].
  split; [constructor|]. split; [|split].
  - destruct (wing_table_lemma gauss_env flyer flyer_machup None k (Some "table.txt") w wings blades v gauss_exact Em (new_object _ _) D) as (_ & T2).
    destruct T2 as (g & r & res0 & G1 & _ & G2 & _); [rewrite flyer_eq; discriminate|].
    rewrite flyer_grid_ok in G1. injection G1 as <-. rewrite <- (f2_len _ _ _ G2). reflexivity.
  - rewrite <- ends_json_name. discriminate.
  - rewrite flyer_eq. reflexivity.
Qed.
(** wings and a propeller, a JSON name *)
Example C71_json_applies : exists E X wings blades w',
  make_machup E tractor = Ok X /\ reached E X (init_mstate X) /\ a_props tractor <> [] /\ json_name "table.json" /\
  distributions E X (Some [("J", PNum (/ 2))]) 1 (Some "table.json") (MkW (Some cruise) None (init_mstate X) [] []) = (Ok (wings, blades), w') /\
  List.length blades = 2%nat.
Proof.
  destruct (tractor_solves None None) as (E & X & t & w' & K1 & K2 & K3 & K4). set (w := MkW _ _ _ _ _) in *.
  destruct (like_solve E (Some [("J", PNum (/ 2))]) tractor X 1 (Some "table.json") w K1) as (_ & _ & _ & _ & L). rewrite K4 in L. cbn [fst] in L.
  destruct L as (wings & blades & L).
  destruct (distributions E X (Some [("J", PNum (/ 2))]) 1 (Some "table.json") w) as [r v] eqn:D. cbn [fst] in L. subst r.
  exists E, X, wings, blades, v. split; [exact K1|]. split; [constructor|]. split; [discriminate|].
  split; [exists "table."; reflexivity|]. split; [exact D|].
  exact (two_rows E tractor X _ _ _ w wings blades v eq_refl K1 (new_object _ _) D).
Qed.
(** a propeller alone, a file that exists *)
Example C71_append_applies : exists E X wings blades w',
  make_machup E puller = Ok X /\ a_wings puller = [] /\ a_props puller <> [] /\ ~ json_name "table.txt" /\
  distributions E X (Some [("J", PNum (/ 2))]) 0 (Some "table.txt")
    (MkW (Some cruise) None (init_mstate X) [("table.txt", [F_error "old contents"])] []) = (Ok (wings, blades), w') /\
  List.length blades = 2%nat.
Proof.
  destruct (puller_solves None [("table.txt", [F_error "old contents"])]) as (E & X & t & w' & K1 & K2 & K3 & K4). set (w := MkW _ _ _ _ _) in *.
  destruct (like_solve E (Some [("J", PNum (/ 2))]) puller X 0 (Some "table.txt") w K1) as (_ & _ & _ & _ & L). rewrite K4 in L. cbn [fst] in L.
  destruct L as (wings & blades & L).
  destruct (distributions E X (Some [("J", PNum (/ 2))]) 0 (Some "table.txt") w) as [r v] eqn:D. cbn [fst] in L. subst r.
  exists E, X, wings, blades, v. split; [exact K1|]. split; [reflexivity|]. split; [discriminate|].
  split; [rewrite <- ends_json_name; discriminate|]. split; [exact D|].
  exact (two_rows E puller X _ _ _ w wings blades v eq_refl K1 (new_object _ _) D).
Qed.
