(** The mesh is the list of triangles of the surfaces (C57), names of airfoils (C60).
    Generic in the number type. *)
From Coq Require Import ZArith String Ascii Bool Arith Lia List.
From Verif Require Import Base Num Geometry Grid Spec_Grid Grid_facts PropModel MU Stl Spec_Stl.
Import ListNotations.

Section Stores.
  Context {T : Type}.
  Notation tri := (triangle T).

  Lemma stores_app (a b : list tri) k :
    stores k (a ++ b) = (stores k a ++ stores (k + Z.of_nat (List.length a)) b)%list.
  Proof.
    revert k. induction a as [|[[p q] r] a IH]; intros k; simpl.
    - now rewrite Z.add_0_r.
    - rewrite IH. replace (k + Z.pos (Pos.of_succ_nat (List.length a)))%Z
        with (k + 1 + Z.of_nat (List.length a))%Z by lia. reflexivity.
  Qed.

  Lemma flat_map_length {A B} (f : A -> list B) l c :
    (forall x, In x l -> List.length (f x) = c) -> List.length (flat_map f l) = (List.length l * c)%nat.
  Proof.
    induction l as [|x l IH]; intros H; simpl; auto.
    rewrite app_length, IH, (H x); auto with datatypes.
  Qed.

  Lemma stores_flat_map (f : nat -> list tri) c m a k :
    (forall j, List.length (f j) = c) ->
    stores k (flat_map f (seq a m))
    = flat_map (fun j => stores (k + Z.of_nat c * (Z.of_nat j - Z.of_nat a)) (f j)) (seq a m).
  Proof.
    intros Hf. revert a k. induction m as [|m IH]; intros a k; simpl; auto.
    rewrite stores_app, Hf, IH. f_equal.
    - f_equal. lia.
    - rewrite !flat_map_concat_map. f_equal. apply map_ext. intros j. f_equal. lia.
  Qed.

  Lemma cell_length flip (p p' q q' : vec3 T) : List.length (cell flip p p' q q') = 2%nat.
  Proof. destruct flip; reflexivity. Qed.

  Lemma band_seq (d : vec3 T) flip a b n :
    List.length a = n -> List.length b = n ->
    band flip a b
    = flat_map (fun j => cell flip (nth j a d) (nth (S j) a d) (nth j b d) (nth (S j) b d)) (seq 0 (n - 1)).
  Proof.
    revert b n. induction a as [|p a IH]; intros b n Ha Hb.
    - simpl in Ha; subst n. reflexivity.
    - destruct b as [|q b]; [simpl in *; lia|].
      destruct a as [|p' a].
      + simpl in Ha; subst n. destruct b; [reflexivity|simpl in Hb; lia].
      + destruct b as [|q' b]; [simpl in *; lia|].
        destruct n as [|[|n]]; [simpl in *; lia|simpl in *; lia|].
        change (band flip (p :: p' :: a) (q :: q' :: b))
          with (cell flip p p' q q' ++ band flip (p' :: a) (q' :: b)).
        rewrite (IH (q' :: b) (S n)) by (simpl in *; lia).
        replace (S (S n) - 1)%nat with (S n) by lia. replace (S n - 1)%nat with n by lia.
        cbn [seq flat_map]. f_equal.
        rewrite <- seq_shift, !flat_map_concat_map, map_map. reflexivity.
  Qed.

  Lemma band_length flip (a b : list (vec3 T)) n :
    List.length a = n -> List.length b = n -> List.length (band flip a b) = (2 * (n - 1))%nat.
  Proof.
    intros Ha Hb. destruct a as [|v a].
    - simpl in Ha; subst; reflexivity.
    - rewrite (band_seq v flip (v :: a) b n) by auto. rewrite flat_map_length with (c := 2%nat).
      + rewrite seq_length. lia.
      + intros; apply cell_length.
  Qed.

  Lemma surface_seq flip rows count n :
    @rectangular T count n rows ->
    surface flip rows = flat_map (fun i => band flip (nth i rows []) (nth (S i) rows [])) (seq 0 (count - 1)).
  Proof.
    revert count. induction rows as [|a rows IH]; intros count [Hc Hn].
    - simpl in Hc; subst; reflexivity.
    - destruct rows as [|b rows].
      + simpl in Hc; subst; reflexivity.
      + destruct count as [|[|count]]; [simpl in *; lia|simpl in *; lia|].
        change (surface flip (a :: b :: rows)) with (band flip a b ++ surface flip (b :: rows)).
        rewrite (IH (S count)).
        2:{ inversion Hn; subst. split; [simpl in *; lia|auto]. }
        replace (S (S count) - 1)%nat with (S count) by lia. replace (S count - 1)%nat with count by lia.
        cbn [seq flat_map]. f_equal.
        rewrite <- seq_shift, !flat_map_concat_map, map_map. reflexivity.
  Qed.

  Lemma nth_row count n rows i : @rectangular T count n rows -> (i < count)%nat -> List.length (nth i rows []) = n.
  Proof.
    intros [Hc Hn] Hi. rewrite Forall_forall in Hn. apply Hn, nth_In. lia.
  Qed.

  Lemma surface_length flip rows count n :
    @rectangular T count n rows ->
    List.length (surface flip rows) = ((count - 1) * (2 * (n - 1)))%nat.
  Proof.
    intros H. rewrite (surface_seq flip rows count n H), flat_map_length with (c := (2 * (n - 1))%nat).
    - now rewrite seq_length.
    - intros i Hi. apply in_seq in Hi. apply band_length; eapply nth_row; eauto; lia.
  Qed.
End Stores.

Section Writes.
  Context {T : Type} {N : num_ops T}.

  Lemma strip_stores flip rows count n k :
    rectangular count n rows -> (0 < n)%nat ->
    strip (N := N) n count k flip rows = stores k (surface flip rows).
  Proof.
    intros H Hpos. rewrite (surface_seq flip rows count n H).
    unfold strip.
    assert (G : forall m a k, (a + m = count - 1)%nat ->
      flat_map (fun i => flat_map (fun j =>
          let k0 := (k + 2 * (Z.of_nat n - 1) * Z.of_nat i + 2 * Z.of_nat j)%Z in
          let k1 := (k0 + 1)%Z in
          if flip then
            [MkWr k0 0 (at_ rows i j); MkWr k0 1 (at_ rows (S i) j); MkWr k0 2 (at_ rows i (S j));
             MkWr k1 0 (at_ rows i (S j)); MkWr k1 1 (at_ rows (S i) j); MkWr k1 2 (at_ rows (S i) (S j))]
          else
            [MkWr k0 0 (at_ rows i j); MkWr k0 1 (at_ rows i (S j)); MkWr k0 2 (at_ rows (S i) j);
             MkWr k1 0 (at_ rows i (S j)); MkWr k1 1 (at_ rows (S i) (S j)); MkWr k1 2 (at_ rows (S i) j)])
          (seq 0 (n - 1))) (seq a m)
      = stores (k + 2 * (Z.of_nat n - 1) * Z.of_nat a)
               (flat_map (fun i => band flip (nth i rows []) (nth (S i) rows [])) (seq a m))).
    { induction m as [|m IH]; intros a k0 Ha; [reflexivity|].
      cbn [seq flat_map]. rewrite stores_app.
      rewrite (@band_length T flip _ _ n);
        [|eapply nth_row; eauto; lia|eapply nth_row; eauto; lia].
      rewrite IH by lia. f_equal; [|f_equal; lia].
      rewrite (band_seq vzero flip _ _ n); [|eapply nth_row; eauto; lia|eapply nth_row; eauto; lia].
      rewrite stores_flat_map with (c := 2%nat) by (intros; apply cell_length).
      rewrite !flat_map_concat_map. f_equal. apply map_ext. intros j.
      unfold at_, cell.
      replace (Z.of_nat 2 * (Z.of_nat j - Z.of_nat 0))%Z with (2 * Z.of_nat j)%Z by lia.
      destruct flip; reflexivity. }
    etransitivity; [apply (G (count - 1)%nat 0%nat k); lia|]. f_equal. lia.
  Qed.

  Lemma update_middle {A} (a : list A) x b f : update (a ++ x :: b) (List.length a) f = (a ++ f x :: b)%list.
  Proof. induction a; simpl; congruence. Qed.

  Lemma slot_of_middle {A} (a : list A) x b :
    slot_of (List.length (a ++ x :: b)) (Z.of_nat (List.length a)) = Some (List.length a).
  Proof.
    unfold slot_of. rewrite app_length. simpl List.length.
    destruct (Z.ltb_spec (Z.of_nat (List.length a)) 0); [lia|].
    destruct (Z.leb_spec 0 (Z.of_nat (List.length a))); [|lia].
    destruct (Z.ltb_spec (Z.of_nat (List.length a)) (Z.of_nat (List.length a + S (List.length b)))); [|lia].
    simpl. now rewrite Nat2Z.id.
  Qed.

  Lemma apply_stores (l : list (triangle T)) done rest :
    List.length rest = List.length l ->
    apply_writes (done ++ rest) (stores (Z.of_nat (List.length done)) l) = Ok (done ++ l)%list.
  Proof.
    revert done rest. induction l as [|[[p q] r] l IH]; intros done rest H.
    - destruct rest; [reflexivity|discriminate].
    - destruct rest as [|t rest]; [discriminate|].
      cbn [stores apply_writes wr_slot wr_corner wr_point].
      rewrite slot_of_middle. rewrite update_middle.
      rewrite slot_of_middle. rewrite update_middle.
      rewrite slot_of_middle. rewrite update_middle.
      destruct t as [[x y] z]. cbn [set_corner].
      change (done ++ (p, q, r) :: rest)%list with (done ++ [(p, q, r)] ++ rest)%list.
      rewrite app_assoc.
      replace (Z.of_nat (List.length done) + 1)%Z with (Z.of_nat (List.length (done ++ [(p, q, r)])))
        by (rewrite app_length; simpl; lia).
      rewrite IH by (simpl in H; lia). now rewrite <- app_assoc.
  Qed.

  (** a mesh created from assignments that store [l] *)
  Lemma apply_all (l : list (triangle T)) :
    apply_writes (repeat (vzero, vzero, vzero) (Z.to_nat (Z.of_nat (List.length l)))) (stores 0 l) = Ok l.
  Proof.
    rewrite Nat2Z.id. apply (apply_stores l [] (repeat (vzero, vzero, vzero) (List.length l))).
    apply repeat_length.
  Qed.

  (** *** Parts: the rows of points of each segment and of each blade *)
  Fixpoint wing_parts (n : nat) (sections : list (section T)) (segs : list (segment T * (nat * nat)))
           (v : names) : res (list (list (list (vec3 T)))) :=
    match segs with
    | [] => Ok []
    | (sg, (a, b)) :: rest =>
        let v' := end_names v sg in
        rlet l := outline_of (fst v') n in
        rlet r := outline_of (snd v') n in
        rlet more := wing_parts n sections rest v' in
        Ok (map (section_row (sg_side sg) l r) (firstn (b - a) (skipn a sections)) :: more)
    end.

  Fixpoint turned (full turn : quat T) (pos : vec3 T) (k : nat) (rows : list (list (vec3 T))) :=
    match k with
    | 0%nat => []
    | S k => map (map (fun v => vadd (body2fixed v full) pos)) rows
             :: turned full turn pos k (map (map (fun v => body2fixed v turn)) rows)
    end.
  Definition blade_rows (n : nat) (g : pgeom T) (outs : list (T * list (T * T))) (k : nat)
    : list (list (list (vec3 T))) :=
    let turn := euler2quat (ndiv (nmul n2 npi) (nnat (pg_k g))) n0 n0 in
    let full := euler2quat n0 (pg_theta g) (pg_gamma g) in
    turned full turn (pg_pos g) k (map (blade_row n (pg_rot g) outs) (pg_stations g)).

  Fixpoint prop_parts (n : nat) (props : list (prop T * pgeom T)) (naca : option string)
    : res (list (bool * list (list (list (vec3 T))))) :=
    match props with
    | [] => Ok []
    | (p, g) :: rest =>
        rlet afs := span_list p (map (@z_zeta T) (pg_stations g)) in
        rlet out := blade_outlines n afs naca in
        let (outs, naca') := out in
        if Nat.eqb (pg_k g) 0 then Err ZeroDivisionError else
        rlet more := prop_parts n rest naca' in
        Ok ((negb (neqb (pg_rot g) n1), blade_rows n g outs (pg_k g)) :: more)
    end.

  Definition prop_mesh (parts : list (bool * list (list (list (vec3 T))))) : list (triangle T) :=
    flat_map (fun q => flat_map (surface (fst q)) (snd q)) parts.

  Lemma outline_length s n (o : list (T * T)) : outline s n = Ok o -> List.length o = n.
  Proof.
    unfold outline, rbind. intros H.
    repeat match type of H with (match ?x with Ok _ => _ | Err _ => _ end) = Ok _ => destruct x; try discriminate end.
    injection H as <-. now rewrite map_length, seq_length.
  Qed.
  Lemma outline_of_length s n (o : list (T * T)) : outline_of s n = Ok o -> List.length o = n.
  Proof. destruct s; simpl; [apply outline_length|discriminate]. Qed.

  (** what the loops need to know about a segment and its slice *)
  Definition sliced (sections : list (section T)) (q : segment T * (nat * nat)) : Prop :=
    (fst (snd q) <= snd (snd q) <= List.length sections)%nat /\
    sg_num (fst q) = (snd (snd q) - fst (snd q))%nat /\ (0 < sg_num (fst q))%nat.

  Lemma seg_rows_rect n sections sg a b l r :
    sliced sections (sg, (a, b)) -> List.length l = n -> List.length r = n ->
    rectangular (sg_num sg) n (map (section_row (sg_side sg) l r) (firstn (b - a) (skipn a sections))).
  Proof.
    intros (H1 & H2 & H3) Hl Hr. simpl in *. split.
    - rewrite map_length, firstn_length, skipn_length. lia.
    - apply Forall_forall. intros x Hx. apply in_map_iff in Hx. destruct Hx as (s & <- & _).
      unfold section_row. rewrite map_length, combine_length. lia.
  Qed.

  Lemma wing_parts_spec n sections segs v parts :
    wing_parts n sections segs v = Ok parts -> Forall (sliced sections) segs ->
    Forall2 (fun q rows => rectangular (sg_num (fst q)) n rows) segs parts.
  Proof.
    revert v parts. induction segs as [|[sg [a b]] rest IH]; intros v parts H Hs.
    - injection H as <-. constructor.
    - cbn [wing_parts] in H. set (v' := end_names v sg) in *. cbv zeta in H.
      destruct (outline_of (fst v') n) as [l|] eqn:El; [|discriminate].
      destruct (outline_of (snd v') n) as [r|] eqn:Er; [|discriminate].
      cbn [rbind] in H. destruct (wing_parts n sections rest v') as [more|] eqn:Em; [|discriminate].
      cbn [rbind] in H. injection H as <-. inversion Hs; subst.
      constructor; [|eapply IH; eauto].
      apply seg_rows_rect; auto; eapply outline_of_length; eauto.
  Qed.

  Lemma wing_writes_parts n sections segs v base : (0 < n)%nat -> Forall (sliced sections) segs ->
    wing_writes n sections segs v base
    = (rlet parts := wing_parts n sections segs v in
       let l := flat_map (surface false) parts in
       Ok (stores base l, (base + Z.of_nat (List.length l))%Z)).
  Proof.
    intros Hn. revert v base. induction segs as [|[sg [a b]] rest IH]; intros v base Hs.
    - cbn [wing_writes wing_parts rbind flat_map stores List.length]. now rewrite Z.add_0_r.
    - cbn [wing_writes wing_parts]. set (v' := end_names v sg). cbv zeta.
      destruct (outline_of (fst v') n) as [l|] eqn:El; [|reflexivity].
      destruct (outline_of (snd v') n) as [r|] eqn:Er; [|reflexivity].
      cbn [rbind]. inversion Hs as [|? ? H1 H2]; subst. rewrite IH by auto.
      destruct (wing_parts n sections rest v') as [more|] eqn:Em; [|reflexivity].
      cbn [rbind flat_map].
      assert (Hr : rectangular (sg_num sg) n (map (section_row (sg_side sg) l r) (firstn (b - a) (skipn a sections)))).
      { apply seg_rows_rect; auto; eapply outline_of_length; eauto. }
      set (rows := map (section_row (sg_side sg) l r) (firstn (b - a) (skipn a sections))) in *.
      rewrite (strip_stores false rows _ _ base Hr Hn).
      rewrite stores_app, app_length.
      pose proof (surface_length false rows _ _ Hr) as HL.
      destruct H1 as (_ & _ & H1). simpl in H1.
      replace (base + (Z.of_nat (sg_num sg) - 1) * (Z.of_nat n - 1) * 2)%Z
        with (base + Z.of_nat (List.length (surface false rows)))%Z by (rewrite HL; nia).
      rewrite Nat2Z.inj_add, Z.add_assoc. reflexivity.
  Qed.

  Lemma blade_rows_rect n g outs k :
    Forall (rectangular (List.length (pg_stations g)) n) (blade_rows n g outs k) /\
    List.length (blade_rows n g outs k) = k.
  Proof.
    unfold blade_rows. cbv zeta.
    assert (H : rectangular (List.length (pg_stations g)) n (map (blade_row n (pg_rot g) outs) (pg_stations g))).
    { split; [now rewrite map_length|]. apply Forall_forall. intros x Hx. apply in_map_iff in Hx.
      destruct Hx as (s & <- & _). unfold blade_row. now rewrite map_length, seq_length. }
    revert H. generalize (map (blade_row n (pg_rot g) outs) (pg_stations g)).
    induction k as [|k IH]; intros rows H; [split; [constructor|reflexivity]|].
    assert (HM : forall f : vec3 T -> vec3 T, rectangular (List.length (pg_stations g)) n (map (map f) rows)).
    { intros f. destruct H as [H1 H2]. split; [now rewrite map_length|].
      apply Forall_map. revert H2. apply Forall_impl. intros r Hr. now rewrite map_length. }
    destruct (IH _ (HM (fun v => body2fixed v (euler2quat (ndiv (nmul n2 npi) (nnat (pg_k g))) n0 n0)))) as [I1 I2].
    cbn [turned List.length]. split; [constructor; auto|f_equal; exact I2].
  Qed.

  Lemma blades_stores n count k base flip full turn pos rows : (0 < n)%nat -> (0 < count)%nat ->
    rectangular count n rows ->
    blades n count k base flip full turn pos rows
    = stores base (flat_map (surface flip) (turned full turn pos k rows)).
  Proof.
    intros Hn Hc. revert base rows. induction k as [|k IH]; intros base rows H; [reflexivity|].
    assert (HM : forall f : vec3 T -> vec3 T, rectangular count n (map (map f) rows)).
    { intros f. destruct H as [H1 H2]. split; [now rewrite map_length|].
      apply Forall_map. revert H2. apply Forall_impl. intros r Hr. now rewrite map_length. }
    cbn [blades turned flat_map]. rewrite stores_app. f_equal.
    - apply strip_stores; auto.
    - rewrite IH by auto. f_equal. rewrite (surface_length flip _ count n) by auto. nia.
  Qed.

  Lemma prop_mesh_length n (props : list (prop T * pgeom T)) naca parts :
    (0 < n)%nat -> Forall (fun q => pg_stations (snd q) <> []) props ->
    prop_parts n props naca = Ok parts ->
    Z.of_nat (List.length (prop_mesh parts))
    = fold_right (fun p acc => Z.of_nat (pg_k p) * (Z.of_nat (List.length (pg_stations p)) - 1) * (Z.of_nat n - 1) * 2 + acc)%Z 0%Z
        (map snd props) /\
    Forall2 (fun q part => List.length (snd part) = pg_k (snd q) /\ (0 < pg_k (snd q))%nat /\
                           fst part = negb (neqb (pg_rot (snd q)) n1) /\
                           Forall (rectangular (List.length (pg_stations (snd q))) n) (snd part)) props parts.
  Proof.
    intros Hn. revert naca parts. induction props as [|[p g] rest IH]; intros naca parts Hs H.
    - injection H as <-. split; [reflexivity|constructor].
    - cbn [prop_parts] in H. destruct (span_list p _) as [afs|]; [|discriminate]. cbn [rbind] in H.
      destruct (blade_outlines n afs naca) as [[outs naca']|]; [|discriminate]. cbn [rbind] in H.
      destruct (Nat.eqb_spec (pg_k g) 0) as [|Hk]; [discriminate|].
      destruct (prop_parts n rest naca') as [more|] eqn:Em; [|discriminate]. injection H as <-.
      inversion Hs as [|? ? H1 H2]; subst. destruct (IH _ _ H2 Em) as [I1 I2].
      destruct (blade_rows_rect n g outs (pg_k g)) as [B1 B2].
      split.
      + unfold prop_mesh in *. cbn [flat_map map fold_right fst snd]. rewrite app_length, Nat2Z.inj_add, I1. f_equal.
        rewrite flat_map_length with (c := ((List.length (pg_stations g) - 1) * (2 * (n - 1)))%nat).
        * rewrite B2. simpl in H1. destruct (pg_stations g); [congruence|]. simpl List.length. nia.
        * intros x Hx. rewrite Forall_forall in B1. eapply surface_length; eauto.
      + constructor; auto. cbn [fst snd]. repeat split; auto; lia.
  Qed.

  Lemma prop_writes_parts n props naca base : (0 < n)%nat ->
    Forall (fun q => pg_stations (snd q) <> []) props ->
    prop_writes n props naca base = (rlet parts := prop_parts n props naca in Ok (stores base (prop_mesh parts))).
  Proof.
    intros Hn. revert naca base. induction props as [|[p g] rest IH]; intros naca base Hs; [reflexivity|].
    cbn [prop_writes prop_parts]. destruct (span_list p _) as [afs|]; [|reflexivity]. cbn [rbind].
    destruct (blade_outlines n afs naca) as [[outs naca']|]; [|reflexivity]. cbn [rbind].
    destruct (Nat.eqb_spec (pg_k g) 0) as [|Hk]; [reflexivity|].
    inversion Hs as [|? ? H1 H2]; subst. rewrite IH by auto.
    destruct (prop_parts n rest naca') as [more|] eqn:Em; [|reflexivity]. cbn [rbind].
    destruct (blade_rows_rect n g outs (pg_k g)) as [B1 B2].
    assert (Hc : (0 < List.length (pg_stations g))%nat).
    { simpl in H1. destruct (pg_stations g); [congruence|simpl; lia]. }
    unfold prop_mesh. cbn [flat_map fst snd]. rewrite stores_app. f_equal. f_equal.
    - apply blades_stores; auto.
      split; [now rewrite map_length|]. apply Forall_forall. intros x Hx. apply in_map_iff in Hx.
      destruct Hx as (s & <- & _). unfold blade_row. now rewrite map_length, seq_length.
    - f_equal. rewrite flat_map_length with (c := ((List.length (pg_stations g) - 1) * (2 * (n - 1)))%nat).
      + rewrite B2. nia.
      + intros x Hx. rewrite Forall_forall in B1. eapply surface_length; eauto.
  Qed.

  (** the whole mesh *)
  Definition grid_parts (n : nat) (g : option (grid T)) : res (list (list (list (vec3 T)))) :=
    match g with
    | Some g => wing_parts n (g_sections g) (combine (g_segments g) (g_slices g)) (None, None)
    | None => Ok []
    end.
  Definition well_sliced (g : grid T) : Prop :=
    List.length (g_slices g) = List.length (g_segments g) /\
    g_num g = list_sum (map (@sg_num T) (g_segments g)) /\
    Forall (sliced (g_sections g)) (combine (g_segments g) (g_slices g)).

  Lemma wing_mesh_length n g parts : (0 < n)%nat -> well_sliced g -> grid_parts n (Some g) = Ok parts ->
    Z.of_nat (List.length (flat_map (surface false) parts))
    = ((Z.of_nat (g_num g) - Z.of_nat (List.length (g_segments g))) * (Z.of_nat n - 1) * 2)%Z.
  Proof.
    intros Hn (H1 & -> & H3) H. simpl in H. pose proof (wing_parts_spec _ _ _ _ _ H H3) as H2.
    assert (G : forall segs slices (parts : list (list (list (vec3 T)))), List.length slices = List.length segs ->
      Forall (sliced (g_sections g)) (combine segs slices) ->
      Forall2 (fun q rows => rectangular (sg_num (fst q)) n rows) (combine segs slices) parts ->
      Z.of_nat (List.length (flat_map (surface false) parts))
      = ((Z.of_nat (list_sum (map (@sg_num T) segs)) - Z.of_nat (List.length segs)) * (Z.of_nat n - 1) * 2)%Z).
    { clear - Hn. intros segs. induction segs as [|sg segs IH]; intros slices parts Hl Hs H.
      - inversion H; subst. reflexivity.
      - destruct slices as [|sl slices]; [discriminate|]. cbn [combine] in *.
        inversion H as [|? rows ? more R1 R2]; subst. inversion Hs as [|? ? S1 S2]; subst.
        cbn [flat_map map]. change (list_sum (sg_num sg :: map (@sg_num T) segs)) with (sg_num sg + list_sum (map (@sg_num T) segs))%nat.
        rewrite app_length, Nat2Z.inj_add, (IH slices more); auto.
        rewrite (surface_length _ _ _ _ R1). destruct S1 as (_ & _ & S1). simpl in *. nia. }
    eapply G; eauto.
  Qed.

  Theorem create_parts n g props : (0 < n)%nat ->
    match g with Some g => well_sliced g | None => True end ->
    Forall (fun q => pg_stations (snd q) <> []) props ->
    create_from_grid n g props
    = (rlet w := grid_parts n g in rlet b := prop_parts n props None in
       Ok (flat_map (surface false) w ++ prop_mesh b)%list) /\
    all_writes n g props
    = (rlet w := grid_parts n g in rlet b := prop_parts n props None in
       Ok (stores 0 (flat_map (surface false) w ++ prop_mesh b))).
  Proof.
    intros Hn Hg Hp.
    assert (HW : all_writes n g props
      = (rlet w := grid_parts n g in rlet b := prop_parts n props None in
       Ok (stores 0 (flat_map (surface false) w ++ prop_mesh b)))).
    { unfold all_writes, grid_parts. destruct g as [g|].
      - destruct Hg as (_ & _ & Hg). rewrite wing_writes_parts by auto.
        destruct (wing_parts n _ _ _) as [w|]; [|reflexivity]. cbn [rbind].
        rewrite prop_writes_parts by auto. destruct (prop_parts n props None); [|reflexivity].
        cbn [rbind]. now rewrite stores_app, !Z.add_0_l.
      - cbn [rbind]. rewrite prop_writes_parts by auto. destruct (prop_parts n props None); reflexivity. }
    split; [|exact HW].
    unfold create_from_grid. rewrite HW.
    assert (HF : (0 <= num_faces n g (map snd props))%Z).
    { unfold num_faces.
      assert (P : forall ps, Forall (fun q => pg_stations (snd q) <> []) ps ->
        (0 <= fold_right (fun p acc => Z.of_nat (pg_k p) * (Z.of_nat (List.length (pg_stations p)) - 1) * (Z.of_nat n - 1) * 2 + acc)
               0 (map (@snd (prop T) (pgeom T)) ps))%Z).
      { clear - Hn. induction ps as [|[p q] ps IH]; intros H; simpl; [lia|]. inversion H; subst.
        specialize (IH H3). simpl in H2. destruct (pg_stations q); [congruence|]. simpl List.length. nia. }
      specialize (P props Hp). destruct g as [g|]; [|lia].
      assert (G : (List.length (g_segments g) <= g_num g)%nat).
      { destruct Hg as (H1 & -> & H3). revert H1 H3. generalize (g_slices g). generalize (g_segments g).
        induction l as [|sg l IH]; intros [|sl sls]; simpl; try lia. intros H1 H3. inversion H3; subst.
        specialize (IH sls ltac:(lia) H4). destruct H2 as (_ & _ & H2). simpl in H2.
        unfold list_sum in *. simpl. lia. }
      nia. }
    destruct (Z.ltb_spec (num_faces n g (map snd props)) 0); [lia|]. cbv zeta.
    destruct (grid_parts n g) as [w|] eqn:Ew; [|reflexivity]. cbn [rbind].
    destruct (prop_parts n props None) as [b|] eqn:Eb; [|reflexivity]. cbn [rbind].
    replace (num_faces n g (map snd props)) with (Z.of_nat (List.length (flat_map (surface false) w ++ prop_mesh b))).
    - apply apply_all.
    - rewrite app_length, Nat2Z.inj_add. unfold num_faces. f_equal.
      + destruct g as [g|]; [eapply wing_mesh_length; eauto|]. injection Ew as <-. reflexivity.
      + eapply prop_mesh_length; eauto.
  Qed.
End Writes.
