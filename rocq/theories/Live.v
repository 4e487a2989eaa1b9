(** Model of a MachUp object whose airplane is edited after the object was made.

    The object keeps a reference to the Airplane (MU.py 63-67).  Grid, reference quantities
    and propeller models were computed in the constructor (MU.py 71-99, llgrid.py 30-85,
    propssolver.py 7-15); what is read from the airplane later is whether it has wings and
    propellers ([self.myairplane._wings], [._props]: MU.py 152, 157, 266, 272, 278, 326, 563,
    641, 732) and the centre of gravity (llgrid.py 424 asks the airplane, propmodel.py 40 and
    566 hold the very array that geometry.py 386-391 writes into).  [X] is the object,
    [pl] the airplane as it is now. *)
From Coq Require Import ZArith String Bool Arith List.
From Verif Require Import Base Num Geometry Grid LLModel PropModel MU.
Import ListNotations.
Set Implicit Arguments.

Section Live.
  Context {T : Type} {N : num_ops T}.
  Variable E : menv T.
  Variable X : machup T.
  Variable pl : airplane T.
  Variable ps : option (dict (pval T)).
  Local Open Scope string_scope.
  Local Open Scope num_scope.
  Notation W := (world T (mstate T)).
  Definition has_wings : bool := match a_wings pl with [] => false | _ => true end.
  Definition has_props : bool := match a_props pl with [] => false | _ => true end.

  (** MU.py 147-171 (as [solve_parts]); self.myprops or self.myllmodel may not exist *)
  Definition live_parts (a : aero_state T) (ctl : option (dict T)) (s : mstate T)
    : res (option (ll_results T) * option (@prop_total T) * fm T) * aero_state T * mstate T :=
    let run_wings (pr : option prop_total) (a : aero_state T) (s : mstate T) :=
      if has_wings then
        match mm_grid X with
        | None => (Err AttributeError, a, s)
        | Some g =>
            match ll_solve (me_lsolve E) g (a_cg pl) "linear" (Some a) ctl (m_ll s) with
            | (Err e, l) => (Err e, a, MkM l (m_ps s))
            | (Ok r, l) =>
                match read_ref l r with
                | None => (Err AttributeError, a, MkM l (m_ps s))     (* does not occur *)
                | Some w =>
                    (Ok (Some w, pr, add_fm (match pr with Some p => pt_fm p | None => zero_fm end) (r_total w)),
                     a, MkM l (m_ps s))
                end
            end
        end
      else (Ok (None, pr, add_fm (match pr with Some p => pt_fm p | None => zero_fm end) zero_fm), a, s) in
    if has_props then
      match mm_props X with
      | [] => (Err AttributeError, a, s)
      | gs =>
          match props_solve (me_prop E) (a_cg pl) (mm_points X) (Some a) ps gs (m_ps s) with
          | (Err e, ss) => (Err e, a, MkM (m_ll s) ss)
          | (Ok (pt, rows), ss) =>
              run_wings (Some pt) (match rows with Some r => set_local a r | None => a end) (MkM (m_ll s) ss)
          end
      end
    else run_wings None a s.

  (** As [host_of].  Simplification: a routine that needs wings (MU.py 563, 641, 732) raises
      its RuntimeError, not AttributeError, if wings were added to an object without. *)
  Definition live_host : host T (mstate T) :=
    {| h_solve := fun a c s => let '(r, a', s') := live_parts a c s in
                               (rlet q := r in Ok (snd q), a', s');
       h_stalled := fun s => match mm_grid X with
                             | Some g => find_stall_location g (m_ll s)
                             | None => Err AttributeError
                             end;
       h_refs := if has_wings then mm_refs X else None;
       h_cg := a_cg pl;
       h_parts := has_wings || has_props |}.

  (** MU.py 101-190 (as [mu_solve]) *)
  Definition live_solve (filename : option string) : st W (fm T) :=
    fun w =>
      match opt_truthy aero_truthy (w_aero w) with
      | Some a =>
          let '(r, a', s') := live_parts a (w_ctl w) (w_model w) in
          let total := rlet q := r in Ok (snd q) in
          let w' := MkW (Some a') (w_ctl w) s' (w_files w)
                        (w_log w ++ [MkCall a (w_ctl w) total s']) in
          match r with
          | Err e => (Err e, w')
          | Ok (wing, prop, tot) => (write_if filename (F_solve wing prop tot) ;;; sret tot) w'
          end
      | None =>
          (r <- do_solve live_host ;;
           match named filename with
           | Some _ => sraise UnboundLocalError
           | None => sret r
           end) w
      end.

  (** MU.py 265-276 (as [distributions], without a file) *)
  Definition live_distributions : st W (list (wing_row T) * list (@blade_row T)) :=
    do_solve live_host ;;;
    m <- sget (@w_model T (mstate T)) ;;
    wings <- (if has_wings then
                match mm_grid X, mm_refs X with
                | Some g, Some r => slift (wing_rows g r (m_ll m))
                | _, _ => sraise AttributeError
                end
              else sret []) ;;
    blades <- (fun w =>
                 let m := w_model w in
                 if has_props then
                   match mm_props X with
                   | [] => (Err AttributeError, w)
                   | gs => (Ok (prop_distributions gs (m_ps m)),
                            MkW (w_aero w) (w_ctl w)
                                (MkM (m_ll m) (map2 (fun g s => find_Vi (pg_stations g) s) gs (m_ps m)))
                                (w_files w) (w_log w))
                   end
                 else (Ok [], w)) ;;
    sret (wings, blades).
End Live.
