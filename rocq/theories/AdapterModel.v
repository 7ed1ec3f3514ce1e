(** Model of the adapters of /repo/transform/transform.go 500-538: the
    subscription each makes on its source; calls of the sink it feeds are
    recorded as observations.  The sink belongs to a mono or flux of its own
    (MonoModel.v, FluxModel.v); what that one's subscriber does in turn to the
    source is not modelled. *)
From Verif Require Import Base MonoModel FluxModel.

(** transform/transform.go 500-511 *)
Definition flux_to_void {V E C} : fhandlers V E (mcall unit E) C :=
  FHandlers None (Some (fun _ => [FObs (CSuccess tt)])) (Some (fun _ e => [FObs (CError e)])) None None false.
(** transform/transform.go 513-524 *)
Definition flux_to_mono {V E C} : fhandlers V E (mcall V E) C :=
  FHandlers (Some (fun _ v => [FObs (CSuccess v)])) None (Some (fun _ e => [FObs (CError e)])) None None false.
(** transform/transform.go 526-538 *)
Definition mono_to_flux {V E C} : handlers V E (fcall V E) C :=
  Handlers (Some (fun _ v => [AObs (KNext v); AObs KComplete])) (Some (fun _ e => [AObs (KError e)])) None.
