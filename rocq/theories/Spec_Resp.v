(** The response of the wings to their controls (C73), and wings that carry no load (C74). *)
From Coq Require Import Reals String Bool List.
From Verif Require Import Base Num RVec Grid LLModel Spec_LL.
Import ListNotations.
Local Open Scope string_scope.
Local Open Scope R_scope.

(** Setting [c] lies [t] steps [dc] away from setting [c0]. *)
Definition along (c0 dc : dict R) (t : R) (c : dict R) : Prop :=
  c <> [] /\ forall key, entry c key = entry c0 key + t * entry dc key.
(** Under the setting [c] no section's surface is deflected by more than 11 degrees. *)
Definition moderate (g : grid R) (c : dict R) : Prop :=
  Forall (fun s => Rabs (commanded c s) <= 11) (g_sections g).
(** The forces in a report. *)
Definition force_readings : list (fm R -> R) := [@FL R; @FD R; @FS R; @FX R; @FY R; @FZ R].
(** A quantity that responds to the setting by superposition: [k ""] with all controls at
    zero, plus [k name] for each unit of the control [name]. *)
Definition superposed (k : string -> R) (c : dict R) : R :=
  k "" + entry c "aileron" * k "aileron" + entry c "elevator" * k "elevator"
       + entry c "rudder" * k "rudder" + entry c "flap" * k "flap".

(** The lift (over density and one half) of a section in the flow without any vortices. *)
Definition lift_alone (x : load) : R :=
  vnorm (ld_v x) ^ 2 * s_dS (ld_sec x) *
  lift_coefficient (ld_sec x) (atan (vdot (ld_v x) (s_un (ld_sec x)) / vdot (ld_v x) (s_ua (ld_sec x))))
                   (s_flap_eff (ld_sec x) * effective_deflection (ld_cmd x)).
