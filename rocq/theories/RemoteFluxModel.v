(** Model of the flux that a remote stream call returns, as its user sees it:
    /repo/proxy/flux.go, with the processor and the flux inside it
    (/repo/rx/flux/processor.go, /repo/rx/flux/flux.go) and [Block] on the host
    (/repo/rx/flux/flux_host.go).  Callbacks are recorded and do nothing else (C51,
    C88 have callbacks that call back in); [Cancel] is left out (C52, C59), and so
    is the input of a channel (C95).  What a call does is one step, but for the
    goroutines of requests and of [Block]. *)
From Verif Require Import Base.
From Coq Require Import List.

Section RemoteFlux.
Context {V E : Type}.
(** Who subscribed: [Async] without callbacks, a caller with the callbacks [k], a
    [Block].  proxy/flux.go 64-70, 129-134, rx/flux/flux_host.go 40-60 *)
Inductive reader := Nobody | Reader (k : nat) | Blocked (k : nat).
(** A subscriber: whose it is, how it ended ([Some None] completed, [Some (Some e)]
    failed), whether it has the [Request] of the processor's [OnSubscribe], the
    values it still expects, what it asks for when it expects none ([None]: nothing,
    [NoRequest]).  rx/flux/flux.go 105-121 *)
Record fsubscriber := { fs_owner : reader; fs_end : option (option E); fs_wired : bool; fs_n : Z; fs_asks : option Z }.
(** A goroutine that will request, from [doRequest], or that will subscribe, from
    [Block]: the flux inside, or the remote flux.  rx/flux/flux_host.go 20-26, 56 *)
Inductive goroutine := GRequest (n : Z) | GInner (k : nat) | GOuter (k : nat).
(** What a user does: subscribe (with what the subscriber asks for), [Async],
    [Notify], the method [Block] of the remote flux, the function [flux.Block] on it,
    [Request] on the subscription made as number [i]; goroutines run; values and the
    end arrive from the peer.  proxy/flux.go 51-74, 129-134, rx/flux/flux.go 96-103, 204-209, rx/flux/flux_host.go 28-60 *)
Inductive fop := FSub (k : nat) (asks : option Z) | FAsync | FNotify (c : nat) | FBlock (k : nat) | FBlockOn (k : nat) | FAsk (i : nat) (n : Z) | FRun (j : nat)
| FValue (v : V) | FEnd (e : option E).
(** What can be seen: frames sent, values and ends given to readers, returns of
    [Block], its panic, notifications ([true] for SignalComplete, [false] for
    SignalError).  proxy/flux.go 81-83, 111-114, rx/flux/flux.go 123-167, rx/flux/flux_host.go 28-60 *)
Inductive fev := Opened (n : Z) | Requested (n : Z) | Gave (k : nat) (v : V) | Ended (k : nat) (e : option E) | BlockReturned (k : nat) (e : option E) | BlockPanicked (k : nat)
| FNotified (c : nat) (ok : bool).
(** [subscribed], [first], [complete] of the remote flux; whether the processor
    still holds the [OnSubscribe] for the next subscriber; the subscribers made so
    far, the last of which is [flux.subscriber] and [processor.sink];
    [flux.callbacks]; the goroutines.  proxy/flux.go 30-41, rx/flux/processor.go 8-12, rx/flux/flux.go 70-74 *)
Record rflux := { rf_subscribed : bool; rf_first : bool; rf_complete : bool; rf_holds : bool; rf_subs : list fsubscriber; rf_callbacks : list nat;
  rf_goroutines : list goroutine; rf_trace : list fev }.
(** proxy/flux.go 12-28 *)
Definition rf_init : rflux :=
  {| rf_subscribed := false; rf_first := true; rf_complete := false; rf_holds := true; rf_subs := []; rf_callbacks := []; rf_goroutines := []; rf_trace := [] |}.
(** rx/rx.go 8 *)
Definition request_max : Z := 2147483647.
(** proxy/flux.go 30-41 *)
Definition log (evs : list fev) (s : rflux) : rflux :=
  {| rf_subscribed := rf_subscribed s; rf_first := rf_first s; rf_complete := rf_complete s; rf_holds := rf_holds s; rf_subs := rf_subs s; rf_callbacks := rf_callbacks s;
     rf_goroutines := rf_goroutines s; rf_trace := rf_trace s ++ evs |}.
(** rx/flux/flux_host.go 21, 56 *)
Definition starts_goroutine (g : goroutine) (s : rflux) : rflux :=
  {| rf_subscribed := rf_subscribed s; rf_first := rf_first s; rf_complete := rf_complete s; rf_holds := rf_holds s; rf_subs := rf_subs s; rf_callbacks := rf_callbacks s;
     rf_goroutines := rf_goroutines s ++ [g]; rf_trace := rf_trace s |}.
(** rx/flux/flux.go 105-121 *)
Definition set_sub (i : nat) (x : fsubscriber) (s : rflux) : rflux :=
  {| rf_subscribed := rf_subscribed s; rf_first := rf_first s; rf_complete := rf_complete s; rf_holds := rf_holds s; rf_subs := firstn i (rf_subs s) ++ x :: skipn (S i) (rf_subs s);
     rf_callbacks := rf_callbacks s; rf_goroutines := rf_goroutines s; rf_trace := rf_trace s |}.
(** [Request] of a subscriber; rx/flux/flux.go 204-209 *)
Definition ask (i : nat) (n : Z) (s : rflux) : rflux :=
  match nth_error (rf_subs s) i with
  | None => s
  | Some x =>
      let s' := set_sub i {| fs_owner := fs_owner x; fs_end := fs_end x; fs_wired := fs_wired x; fs_n := fs_n x + n; fs_asks := fs_asks x |} s in
      if fs_wired x then starts_goroutine (GRequest n) s' else s'
  end.
(** [handleOnSubscribe]; rx/flux/flux.go 193-202 *)
Definition ask_again (i : nat) (s : rflux) : rflux :=
  match nth_error (rf_subs s) i with
  | Some x => match fs_asks x with Some n => ask i n s | None => s end
  | None => s
  end.
(** [Subscribe] of the flux inside with the processor's source; rx/flux/flux.go 76-90, rx/flux/processor.go 16-22 *)
Definition inner_subscribe (w : reader) (asks : option Z) (s : rflux) : rflux :=
  ask_again (List.length (rf_subs s))
    {| rf_subscribed := rf_subscribed s; rf_first := rf_first s; rf_complete := rf_complete s; rf_holds := false;
       rf_subs := rf_subs s ++ [{| fs_owner := w; fs_end := None; fs_wired := rf_holds s; fs_n := 0; fs_asks := asks |}]; rf_callbacks := rf_callbacks s;
       rf_goroutines := rf_goroutines s; rf_trace := rf_trace s |}.
(** proxy/flux.go 129-134 *)
Definition outer_subscribe (w : reader) (asks : option Z) (s : rflux) : rflux :=
  inner_subscribe w asks
    {| rf_subscribed := true; rf_first := rf_first s; rf_complete := rf_complete s; rf_holds := rf_holds s; rf_subs := rf_subs s; rf_callbacks := rf_callbacks s;
       rf_goroutines := rf_goroutines s; rf_trace := rf_trace s |}.
(** [Request] of the remote flux; proxy/flux.go 76-84, 110-115 *)
Definition request (n : Z) (s : rflux) : rflux :=
  if rf_complete s then s
  else if rf_first s then
    log [Opened n] {| rf_subscribed := rf_subscribed s; rf_first := false; rf_complete := rf_complete s; rf_holds := rf_holds s; rf_subs := rf_subs s; rf_callbacks := rf_callbacks s;
       rf_goroutines := rf_goroutines s; rf_trace := rf_trace s |}
  else log [Requested n] s.
(** [flux.subscriber], if any; rx/flux/flux.go 85, 92-94 *)
Definition current (s : rflux) : option fsubscriber := nth_error (rf_subs s) (pred (List.length (rf_subs s))).
(** [Next]; rx/flux/flux.go 123-135, rx/flux/processor.go 27-31, proxy/flux.go 51-53 *)
Definition value (v : V) (s : rflux) : rflux :=
  match current s with
  | None => s
  | Some x =>
      match fs_end x with
      | Some _ => s
      | None =>
          let s' := log (match fs_owner x with Nobody => [] | Reader k | Blocked k => [Gave k v] end)
            (set_sub (pred (List.length (rf_subs s))) {| fs_owner := fs_owner x; fs_end := None; fs_wired := fs_wired x; fs_n := fs_n x - 1; fs_asks := fs_asks x |} s) in
          if (fs_n x - 1 =? 0)%Z then ask_again (pred (List.length (rf_subs s))) s' else s'
      end
  end.
(** [Complete] and [Error] of a subscriber with [finally]; [Block] returns in
    Finally.  rx/flux/flux.go 137-167, rx/flux/flux_host.go 44-59 *)
Definition ending (e : option E) (s : rflux) : rflux :=
  match current s with
  | None => s
  | Some x =>
      match fs_end x with
      | Some _ => s
      | None =>
          log (match fs_owner x with Nobody => [] | Reader k => [Ended k e] | Blocked k => [BlockReturned k e] end
               ++ map (fun c => FNotified c (match e with None => true | Some _ => false end)) (rf_callbacks s))
            (set_sub (pred (List.length (rf_subs s))) {| fs_owner := fs_owner x; fs_end := Some e; fs_wired := fs_wired x; fs_n := fs_n x; fs_asks := fs_asks x |} s)
      end
  end.
(** The end from the peer: an error is followed by OnComplete (handler/handler.go
    233-236, transport/wasmrs/host/instance.go 391-392).  proxy/flux.go 55-62 *)
Definition ended (e : option E) (s : rflux) : rflux :=
  let s' := ending None (ending e s) in
  {| rf_subscribed := rf_subscribed s'; rf_first := rf_first s'; rf_complete := true; rf_holds := rf_holds s'; rf_subs := rf_subs s'; rf_callbacks := rf_callbacks s';
     rf_goroutines := rf_goroutines s'; rf_trace := rf_trace s' |}.
(** rx/flux/flux.go 98-104 *)
Definition notify (c : nat) (s : rflux) : rflux :=
  match current s with
  | Some {| fs_end := Some e |} => log [FNotified c (match e with None => true | Some _ => false end)] s
  | _ => {| rf_subscribed := rf_subscribed s; rf_first := rf_first s; rf_complete := rf_complete s; rf_holds := rf_holds s; rf_subs := rf_subs s; rf_callbacks := rf_callbacks s ++ [c];
            rf_goroutines := rf_goroutines s; rf_trace := rf_trace s |}
  end.
(** The method [Block] is that of the flux inside (promoted through [Processor]):
    it dereferences [f.subscriber].  rx/flux/flux_host.go 28-34, proxy/flux.go 30-32 *)
Definition block (k : nat) (s : rflux) : rflux :=
  match current s with
  | None => log [BlockPanicked k] s
  | Some x => match fs_end x with Some e => log [BlockReturned k e] s | None => starts_goroutine (GInner k) s end
  end.
(** rx/flux/flux_host.go 20-26, 56 *)
Definition run_goroutine (g : goroutine) (s : rflux) : rflux :=
  match g with
  | GRequest n => request n s
  | GInner k => inner_subscribe (Blocked k) (Some request_max) s
  | GOuter k => outer_subscribe (Blocked k) (Some request_max) s
  end.
(** rx/flux/flux_host.go 21, 56 *)
Definition without (j : nat) (s : rflux) : rflux :=
  {| rf_subscribed := rf_subscribed s; rf_first := rf_first s; rf_complete := rf_complete s; rf_holds := rf_holds s; rf_subs := rf_subs s; rf_callbacks := rf_callbacks s;
     rf_goroutines := firstn j (rf_goroutines s) ++ skipn (S j) (rf_goroutines s); rf_trace := rf_trace s |}.
(** One step; [None] where it cannot happen: nothing arrives before the stream is
    registered (proxy/flux.go 131), a goroutine or a subscription that does not
    exist.  [Block] is called without OnRequest and NoRequest.  proxy/flux.go 51-74, 129-134 *)
Definition rf_step (s : rflux) (x : fop) : option rflux :=
  match x with
  | FSub k asks => Some (outer_subscribe (Reader k) asks s)
  | FAsync => Some (if rf_subscribed s then s else outer_subscribe Nobody (Some request_max) s)
  | FNotify c => Some (notify c s)
  | FBlock k => Some (block k s)
  | FBlockOn k => Some (starts_goroutine (GOuter k) s)
  | FAsk i n => if (i <? List.length (rf_subs s))%nat then Some (ask i n s) else None
  | FRun j => match nth_error (rf_goroutines s) j with Some g => Some (run_goroutine g (without j s)) | None => None end
  | FValue v => if rf_subscribed s then Some (value v s) else None
  | FEnd e => if rf_subscribed s then Some (ended e s) else None
  end.
(** A sequence of steps of any number of goroutines.  proxy/flux.go 51-134 *)
Fixpoint rf_run (xs : list fop) (s : rflux) : option rflux :=
  match xs with
  | [] => Some s
  | x :: rest => match rf_step s x with Some s' => rf_run rest s' | None => None end
  end.
End RemoteFlux.
