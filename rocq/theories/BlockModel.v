(** Model of the blocking ways to use a mono or a flux on the host:
    /repo/rx/mono/mono_host.go (Block), /repo/rx/flux/flux_host.go 28-59
    (Block), flux.go 38-61 (Error) and proxy/mono_host.go (Block of a stream
    mono, which is [mono_block] without the shortcut).

    All of them subscribe with callbacks that remember the outcome and close a
    channel, and wait for the channel.  What becomes of the waiting goroutine is
    read off the callbacks made: the first [close] lets it return, a second one
    is a panic, which ends the process.

    Simplification: the user's own Finally callback, which runs before the
    close (flux_host.go 51-54), is taken to end; the close is identified with the
    call of Finally. *)
From Verif Require Import Base MonoModel FluxModel.

(** ** flux_host.go *)
(** 40-54: the subscription made by Block; OnError and Finally are always
    present.  rx/flux/flux_host.go 43-48 *)
Definition block_error {V E O C} (f : option (list (fevent V E O) -> E -> list (fact V E O C))) (t : list (fevent V E O)) (e : E) : list (fact V E O C) :=
  match f with Some g => g t e | None => [] end.
(** rx/flux/flux_host.go 49-54 *)
Definition block_finally {V E O C} (f : option (list (fevent V E O) -> signal -> list (fact V E O C))) (t : list (fevent V E O)) (g : signal) : list (fact V E O C) :=
  match f with Some k => k t g | None => [] end.
(** rx/flux/flux_host.go 40-54 *)
Definition block_handlers {V E O C} (h : fhandlers V E O C) : fhandlers V E O C :=
  FHandlers (fh_next h) (fh_complete h) (Some (block_error (fh_error h))) (fh_request h) (Some (block_finally (fh_finally h))) (fh_norequest h).
(** The goroutine in Block (56-58): waiting, returned, or the process gone.  rx/flux/flux_host.go 55-58 *)
Inductive bres (E : Type) := Waiting | Returned (e : option E) | Crashed.
Arguments Waiting {E}. Arguments Returned {E}. Arguments Crashed {E}.
(** The named result [err] and the channel, as the callbacks change them (rx/flux/flux_host.go 43-54). *)
Definition block_see {D E} (st : option E * bres E) (o : fobs D E) : option E * bres E :=
  match o with
  | OError e => (Some e, snd st)
  | OFinally _ => (fst st, match snd st with Waiting => Returned (fst st) | _ => Crashed end)
  | _ => st
  end.
(** rx/flux/flux_host.go 40-58 *)
Definition block_state {D E} (l : list (fobs D E)) : option E * bres E := fold_left block_see l (None, Waiting).
(** rx/flux/flux_host.go 57-58 *)
Definition block_result {D E} (l : list (fobs D E)) : bres E := snd (block_state l).
(** rx/flux/flux_host.go 28-34: [flux.Block] looks at the last subscription first; without any it
    dereferences nil. *)
Inductive bentry (E : Type) := EntryPanic | EntryReturn (e : option E) | EntrySubscribe.
Arguments EntryPanic {E}. Arguments EntryReturn {E}. Arguments EntrySubscribe {E}.
(** rx/flux/flux_host.go 28-34 *)
Definition flux_block_entry {V E O C St} (c : fconf V E O C St) : bentry E :=
  match match fc_cur c with Some s => nth_error (fc_subs c) s | None => None end with
  | None => EntryPanic
  | Some m => if fs_closed m then EntryReturn (fs_err m) else EntrySubscribe
  end.
(** rx/flux/flux.go 46-51 ([errorFlow.Subscribe]): what the subscriber's OnError does,
    and nothing else. *)
Definition error_subscribe {V E O C} (e : E) (h : fhandlers V E O C) : list (fact V E O C) :=
  match fh_error h with Some f => f [] e | None => [] end.
(** rx/flux/flux.go 59-61 *)
Definition error_flux_block {E} (e : E) : bres E := Returned (Some e).

(** ** mono_host.go *)
(** 17-26, 36-45; rx/mono/mono_host.go 18-27: OnSuccess and OnError, no Finally. *)
Definition mono_block_handlers {V E O C} : handlers V E O C := Handlers (Some (fun _ _ => [])) (Some (fun _ _ => [])) None.
(** rx/mono/mono_host.go 15-28, 34-50 *)
Inductive mbres (V E : Type) := MWaiting | MReturned (r : V + E) | MCrashed.
Arguments MWaiting {V E}. Arguments MReturned {V E}. Arguments MCrashed {V E}.
(** rx/mono/mono_host.go 17-26, 36-45 *)
Definition mblock_see {V E} (st : mbres V E) (r : V + E) : mbres V E :=
  match st with MWaiting => MReturned r | _ => MCrashed end.
(** rx/mono/mono_host.go 27-28, 46-50 *)
Definition mblock_result {V E} (l : list (V + E)) : mbres V E := fold_left mblock_see l MWaiting.
(** rx/mono/mono_host.go 11-13: the shortcut; [None]: Block subscribes (again). *)
Definition mono_block_entry {V E O C St} (c : mconf V E O C St) : option (option V * option E) :=
  match match mc_cur c with Some s => nth_error (mc_subs c) s | None => None end with
  | Some m => if ms_closed m then Some (ms_value m, ms_err m) else None
  | None => None
  end.
