(** Model of the mono that a remote request-response call returns, as its user
    sees it: /repo/proxy/mono.go, with the processor and the mono inside it
    (/repo/rx/mono/processor.go, /repo/rx/mono/mono.go) and the typed mono that
    [mono.Map] puts around it (/repo/rx/mono/mono.go 199-247,
    /repo/rx/mono/mono_host.go).  Callbacks are recorded and do nothing else
    (C49, C50 have callbacks that call back in); Cancel is left out (the type
    does not offer it). *)
From Verif Require Import Base.
From Coq Require Import List.

Section RemoteMono.
Context {V D E : Type}.
(** The function given to [mono.Map]; an error is [inr].  rx/mono/mono.go 199-204 *)
Variable tx : V -> D + E.
(** Who subscribed: [Async] without callbacks, a caller with the callbacks [k] on
    the remote or the typed mono, a [Block] of the remote or the typed mono.
    proxy/mono.go 53-59, 65-71; rx/mono/mono.go 211-229; rx/mono/mono_host.go 10-50 *)
Inductive owner := Nobody | Caller (k : nat) | Typed (k : nat) | Blocked (k : nat) | TypedBlocked (k : nat).
(** [Block] called and its goroutine are two steps: [Block]/[TypedBlock], then
    [Run j] for the [j]-th goroutine that has not run.  [Answer] is a payload or
    an error for the stream.  proxy/mono.go 42-71, rx/mono/mono_host.go 10-50, rx/mono/mono.go 120-142, 231-247 *)
Inductive rop := Subscribe (k : nat) | TypedSubscribe (k : nat) | Async | Block (k : nat) | TypedBlock (k : nat) | Run (j : nat)
| Notify (c : nat) | Get | TypedGet | Answer (o : V + E).
(** What can be seen from outside.  The signal of [Finally] is [true] for
    SignalComplete and [false] for SignalError.  proxy/mono.go 69, rx/mono/mono.go 157-189 *)
Inductive rev_ := Sent | Called (k : nat) (o : V + E) | TypedCalled (k : nat) (o : D + E) | Returned (k : nat) (o : V + E) | TypedReturned (k : nat) (o : D + E)
| Notified (c : nat) (ok : bool) | Got (o : V + E) | TypedGot (o : D + E).
(** [streamMono.subscribed]; the subscribers made so far, each with its owner and
    its outcome once closed; [mono.subscriber] and [ProcessorImpl.sink] as
    positions; the stored outcome; [mono.callbacks]; the goroutines.
    proxy/mono.go 24-32, rx/mono/processor.go 8-13, rx/mono/mono.go 101-105, 144-155 *)
Record rmono := { rm_subscribed : bool; rm_subs : list (owner * option (V + E)); rm_current : option nat; rm_sink : option nat;
  rm_success : option V; rm_error : option E; rm_callbacks : list nat; rm_goroutines : list owner; rm_trace : list rev_ }.
(** proxy/mono.go 12-22, rx/mono/processor.go 15-27 *)
Definition rm_init : rmono :=
  {| rm_subscribed := false; rm_subs := []; rm_current := None; rm_sink := None; rm_success := None; rm_error := None; rm_callbacks := []; rm_goroutines := []; rm_trace := [] |}.
(** rx/mono/mono.go 242-246 *)
Definition typed (o : V + E) : D + E := match o with inl v => tx v | inr e => inr e end.
(** rx/mono/mono.go 166, 178 *)
Definition signal_of (o : V + E) : bool := match o with inl _ => true | inr _ => false end.
(** The owner's callback; rx/mono/mono.go 163-165, 175-177, 213-224, rx/mono/mono_host.go 18-25, 37-44 *)
Definition tells (w : owner) (o : V + E) : list rev_ :=
  match w with
  | Nobody => []
  | Caller k => [Called k o]
  | Typed k => [TypedCalled k (typed o)]
  | Blocked k => [Returned k o]
  | TypedBlocked k => [TypedReturned k (typed o)]
  end.
(** proxy/mono.go 24-32 *)
Definition traced (evs : list rev_) (s : rmono) : rmono :=
  {| rm_subscribed := rm_subscribed s; rm_subs := rm_subs s; rm_current := rm_current s; rm_sink := rm_sink s; rm_success := rm_success s; rm_error := rm_error s;
     rm_callbacks := rm_callbacks s; rm_goroutines := rm_goroutines s; rm_trace := rm_trace s ++ evs |}.
(** [Success] and [Error] of a subscriber, with [finally]; rx/mono/mono.go 157-189 *)
Definition sink_call (n : nat) (o : V + E) (s : rmono) : rmono :=
  match nth_error (rm_subs s) n with
  | Some (w, None) =>
      traced (tells w o ++ map (fun c => Notified c (signal_of o)) (rm_callbacks s))
        {| rm_subscribed := rm_subscribed s; rm_subs := firstn n (rm_subs s) ++ (w, Some o) :: skipn (S n) (rm_subs s); rm_current := rm_current s; rm_sink := rm_sink s;
           rm_success := rm_success s; rm_error := rm_error s; rm_callbacks := rm_callbacks s; rm_goroutines := rm_goroutines s; rm_trace := rm_trace s |}
  | _ => s
  end.
(** [Subscribe] of the mono inside, with the processor's source; rx/mono/mono.go 107-118, rx/mono/processor.go 17-24 *)
Definition inner_subscribe (w : owner) (s : rmono) : rmono :=
  let n := List.length (rm_subs s) in
  let s' := {| rm_subscribed := rm_subscribed s; rm_subs := rm_subs s ++ [(w, None)]; rm_current := Some n; rm_sink := Some n;
     rm_success := rm_success s; rm_error := rm_error s; rm_callbacks := rm_callbacks s; rm_goroutines := rm_goroutines s; rm_trace := rm_trace s |} in
  match rm_success s, rm_error s with
  | Some v, _ => sink_call n (inl v) s'
  | None, Some e => sink_call n (inr e) s'
  | None, None => s'
  end.
(** proxy/mono.go 66 *)
Definition now_subscribed (s : rmono) : rmono :=
  {| rm_subscribed := true; rm_subs := rm_subs s; rm_current := rm_current s; rm_sink := rm_sink s; rm_success := rm_success s; rm_error := rm_error s;
     rm_callbacks := rm_callbacks s; rm_goroutines := rm_goroutines s; rm_trace := rm_trace s |}.
(** proxy/mono.go 65-71 *)
Definition outer_subscribe (w : owner) (s : rmono) : rmono := traced [Sent] (inner_subscribe w (now_subscribed s)).
(** proxy/mono.go 53-59 (and rx/mono/mono.go 231-233) *)
Definition async (s : rmono) : rmono := if rm_subscribed s then s else outer_subscribe Nobody s.
(** The outcome of [mono.subscriber], if there is one and it is closed; rx/mono/mono.go 130, 139, rx/mono/mono_host.go 11 *)
Definition closed_with (s : rmono) : option (V + E) :=
  match rm_current s with
  | Some n => match nth_error (rm_subs s) n with Some (_, x) => x | None => None end
  | None => None
  end.
(** rx/mono/mono_host.go 16, 35 *)
Definition spawn (w : owner) (s : rmono) : rmono :=
  {| rm_subscribed := rm_subscribed s; rm_subs := rm_subs s; rm_current := rm_current s; rm_sink := rm_sink s; rm_success := rm_success s; rm_error := rm_error s;
     rm_callbacks := rm_callbacks s; rm_goroutines := rm_goroutines s ++ [w]; rm_trace := rm_trace s |}.
(** The [Block] that a remote mono has is that of the mono inside it (it is
    promoted through [Processor]); rx/mono/mono_host.go 10-31, proxy/mono.go 24-26 *)
Definition block (k : nat) (s : rmono) : rmono :=
  match closed_with s with Some o => traced [Returned k o] s | None => spawn (Blocked k) s end.
(** A goroutine of [Block]: [s.Subscribe] is that of the mono inside,
    [b.Subscribe] that of the typed mono, which subscribes the remote one.
    rx/mono/mono_host.go 17-26, 36-45, rx/mono/mono.go 211-229 *)
Definition run_goroutine (w : owner) (s : rmono) : rmono :=
  match w with Blocked _ => inner_subscribe w s | _ => outer_subscribe w s end.
(** rx/mono/mono_host.go 16, 35 *)
Definition without (j : nat) (s : rmono) : rmono :=
  {| rm_subscribed := rm_subscribed s; rm_subs := rm_subs s; rm_current := rm_current s; rm_sink := rm_sink s; rm_success := rm_success s; rm_error := rm_error s;
     rm_callbacks := rm_callbacks s; rm_goroutines := firstn j (rm_goroutines s) ++ skipn (S j) (rm_goroutines s); rm_trace := rm_trace s |}.
(** rx/mono/mono.go 123-136 *)
Definition notify (c : nat) (s : rmono) : rmono :=
  match closed_with s with
  | Some o => traced [Notified c (signal_of o)] s
  | None => {| rm_subscribed := rm_subscribed s; rm_subs := rm_subs s; rm_current := rm_current s; rm_sink := rm_sink s; rm_success := rm_success s; rm_error := rm_error s;
               rm_callbacks := rm_callbacks s ++ [c]; rm_goroutines := rm_goroutines s; rm_trace := rm_trace s |}
  end.
(** [Success] and [Error] of the processor; rx/mono/processor.go 29-43, proxy/mono.go 42-51 *)
Definition answer (o : V + E) (s : rmono) : rmono :=
  match rm_sink s with
  | Some n => sink_call n o s
  | None =>
      {| rm_subscribed := rm_subscribed s; rm_subs := rm_subs s; rm_current := rm_current s; rm_sink := rm_sink s;
         rm_success := match o with inl v => Some v | inr _ => rm_success s end; rm_error := match o with inl _ => rm_error s | inr e => Some e end;
         rm_callbacks := rm_callbacks s; rm_goroutines := rm_goroutines s; rm_trace := rm_trace s |}
  end.
(** One step; [None] where it cannot happen: an answer before the stream is
    registered (proxy/mono.go 67), a goroutine that does not exist; or where [Get]
    panics (rx/mono/mono.go 138-143).  proxy/mono.go 42-71 *)
Definition rm_step (s : rmono) (x : rop) : option rmono :=
  match x with
  | Subscribe k => Some (outer_subscribe (Caller k) s)
  | TypedSubscribe k => Some (outer_subscribe (Typed k) s)
  | Async => Some (async s)
  | Block k => Some (block k s)
  | TypedBlock k => Some (spawn (TypedBlocked k) s)
  | Run j => match nth_error (rm_goroutines s) j with Some w => Some (run_goroutine w (without j s)) | None => None end
  | Notify c => Some (notify c s)
  | Get => match closed_with s with Some o => Some (traced [Got o] s) | None => None end
  | TypedGet => match closed_with s with Some o => Some (traced [TypedGot (typed o)] s) | None => None end
  | Answer o => if rm_subscribed s then Some (answer o s) else None
  end.
(** A sequence of steps of any number of goroutines.  proxy/mono.go 42-71 *)
Fixpoint rm_run (xs : list rop) (s : rmono) : option rmono :=
  match xs with
  | [] => Some s
  | x :: rest => match rm_step s x with Some s' => rm_run rest s' | None => None end
  end.
End RemoteMono.
