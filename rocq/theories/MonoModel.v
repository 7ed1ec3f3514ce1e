(** Model of /repo/rx/mono: mono.go 95-197 (Create), 199-247 (Map) and processor.go.

    One mono, any number of subscriptions.  The machine runs one goroutine at a
    time to completion: [mc_threads] are goroutines that may still call in
    (in any order), [mc_stack] is what the current one has left to do, and a
    callback pushes its own calls in front, so callbacks may call back in at
    any depth.  Interleavings inside a call are not modelled (mono.go has no
    locks; a mono has to be used from one goroutine at a time). *)
From Verif Require Import Base.

(** rx/rx.go 14-21 *)
Inductive signal := SigComplete | SigCancel | SigError.

(** [V]: values, [E]: errors, [O]: anything a callback does outside of this
    package, [C]: names of pieces of code of the source, working on a store [St]. *)
Section Mono.
Context {V E O C St : Type}.

(** A call of a sink method.  rx/mono/mono.go 157-197 *)
Inductive mcall := CSuccess (v : V) | CError (e : E) | CCancel.
(** What is observed: calls of the sink of subscription [s], callbacks of
    subscription [s], assignments of its signal, registrations of and calls to
    notification callbacks (by name), results of Get.  rx/mono/mono.go 107-197 *)
Inductive mevent :=
| ECalled (s : nat) (c : mcall)
| EOnSuccess (s : nat) (v : V) | EOnError (s : nat) (e : E) | EFinally (s : nat) (g : signal)
| ESignal (s : nat) (g : signal)
| ERegistered (id : N) | EFired (id : N) (g : signal)
| EGot (v : option V) (e : option E)
| EObs (o : O).

(** What callbacks, sources and goroutines do.  A callback is a function of
    everything observed so far, so that it may keep any state.  rx/mono/mono.go 19-26, 107-197 *)
Inductive mact :=
| ACall (s : nat) (c : mcall)
| ASubscribe (h : handlers)
| ANotify (id : N) (fn : list mevent -> signal -> list mact)
| AGet
| AObs (o : O)
| ADo (c : C)
(** 21-26; [OnRequest] is never called. *)
with handlers := Handlers
  (on_success : option (list mevent -> V -> list mact))
  (on_error : option (list mevent -> E -> list mact))
  (fin : option (list mevent -> signal -> list mact)).
(** rx/mono/mono.go 21-26 *)
Definition h_success (h : handlers) := let (a, _, _) := h in a.
(** rx/mono/mono.go 21-26 *)
Definition h_error (h : handlers) := let (_, b, _) := h in b.
(** rx/mono/mono.go 21-26 *)
Definition h_finally (h : handlers) := let (_, _, c) := h in c.

(** rx/mono/mono.go 144-155 *)
Record msub := { ms_closed : bool; ms_value : option V; ms_err : option E; ms_signal : signal; ms_h : handlers }.
(** Pending work: calls, and the remainders of [finally].  rx/mono/mono.go 107-197 *)
Inductive mitem :=
| IAct (a : mact)
| IFinally (s : nat) (g : signal)
| ILoop (s : nat) (g : signal)
| IFire (id : N) (fn : list mevent -> signal -> list mact) (g : signal).
(** rx/mono/mono.go 101-105 *)
Record mconf := {
  mc_subs : list msub; mc_cur : option nat;
  mc_callbacks : list (N * (list mevent -> signal -> list mact));
  mc_store : St; mc_trace : list mevent;
  mc_stack : list mitem; mc_threads : list (list mact); mc_panicked : bool }.

(** The source of the mono (19, 102) gets the sink of a subscription. *)
Variable source : nat -> list mact.
(** Code of the source; [None] is a panic. *)
Variable code : C -> list mevent -> St -> option (St * list mact).

(** rx/mono/mono.go 157-197 *)
Definition mset {A} (l : list A) (i : nat) (x : A) : list A := firstn i l ++ x :: skipn (S i) l.
(** rx/mono/mono.go 107-197 *)
Definition acts (l : list mact) : list mitem := map IAct l.
(** rx/mono/mono.go 107-197 *)
Definition emit (c : mconf) (subs : list msub) (ev : list mevent) (stack : list mitem) : mconf :=
  {| mc_subs := subs; mc_cur := mc_cur c; mc_callbacks := mc_callbacks c; mc_store := mc_store c;
     mc_trace := mc_trace c ++ ev; mc_stack := stack; mc_threads := mc_threads c; mc_panicked := mc_panicked c |}.
(** rx/mono/mono.go 137-142 *)
Definition panic (c : mconf) : mconf :=
  {| mc_subs := mc_subs c; mc_cur := mc_cur c; mc_callbacks := mc_callbacks c; mc_store := mc_store c;
     mc_trace := mc_trace c; mc_stack := mc_stack c; mc_threads := mc_threads c; mc_panicked := true |}.

(** [Success] (157-167), [Error] (169-179), [Cancel] (191-197).  A sink that
    does not exist cannot be called.  rx/mono/mono.go 157-197 *)
Definition do_call (s : nat) (k : mcall) (rest : list mitem) (c : mconf) : mconf :=
  match nth_error (mc_subs c) s with
  | None => emit c (mc_subs c) [] rest
  | Some m =>
      if ms_closed m then emit c (mc_subs c) [ECalled s k] rest
      else match k with
           | CSuccess v =>
               let m' := {| ms_closed := true; ms_value := Some v; ms_err := ms_err m; ms_signal := ms_signal m; ms_h := ms_h m |} in
               match h_success (ms_h m) with
               | Some f => emit c (mset (mc_subs c) s m') [ECalled s k; EOnSuccess s v]
                             (acts (f (mc_trace c ++ [ECalled s k; EOnSuccess s v]) v) ++ IFinally s SigComplete :: rest)
               | None => emit c (mset (mc_subs c) s m') [ECalled s k] (IFinally s SigComplete :: rest)
               end
           | CError e =>
               let m' := {| ms_closed := true; ms_value := ms_value m; ms_err := Some e; ms_signal := ms_signal m; ms_h := ms_h m |} in
               match h_error (ms_h m) with
               | Some f => emit c (mset (mc_subs c) s m') [ECalled s k; EOnError s e]
                             (acts (f (mc_trace c ++ [ECalled s k; EOnError s e]) e) ++ IFinally s SigError :: rest)
               | None => emit c (mset (mc_subs c) s m') [ECalled s k] (IFinally s SigError :: rest)
               end
           | CCancel =>
               let m' := {| ms_closed := true; ms_value := ms_value m; ms_err := ms_err m; ms_signal := ms_signal m; ms_h := ms_h m |} in
               emit c (mset (mc_subs c) s m') [ECalled s k] (IFinally s SigCancel :: rest)
           end
  end.
(** [finally], rx/mono/mono.go 181-189: the signal is set and [doFinally] runs; then the
    callbacks registered so far are called in turn. *)
Definition do_finally (s : nat) (g : signal) (rest : list mitem) (c : mconf) : mconf :=
  match nth_error (mc_subs c) s with
  | None => emit c (mc_subs c) [] rest
  | Some m =>
      let m' := {| ms_closed := ms_closed m; ms_value := ms_value m; ms_err := ms_err m; ms_signal := g; ms_h := ms_h m |} in
      match h_finally (ms_h m) with
      | Some f => emit c (mset (mc_subs c) s m') [ESignal s g; EFinally s g]
                    (acts (f (mc_trace c ++ [ESignal s g; EFinally s g]) g) ++ ILoop s g :: rest)
      | None => emit c (mset (mc_subs c) s m') [ESignal s g] (ILoop s g :: rest)
      end
  end.
(** [Notify], rx/mono/mono.go 123-135 *)
Definition do_notify (id : N) (fn : list mevent -> signal -> list mact) (rest : list mitem) (c : mconf) : mconf :=
  match match mc_cur c with Some s => nth_error (mc_subs c) s | None => None end with
  | Some m =>
      if ms_closed m then emit c (mc_subs c) [ERegistered id] (IFire id fn (ms_signal m) :: rest)
      else {| mc_subs := mc_subs c; mc_cur := mc_cur c; mc_callbacks := mc_callbacks c ++ [(id, fn)]; mc_store := mc_store c;
              mc_trace := mc_trace c ++ [ERegistered id]; mc_stack := rest; mc_threads := mc_threads c; mc_panicked := mc_panicked c |}
  | None => {| mc_subs := mc_subs c; mc_cur := mc_cur c; mc_callbacks := mc_callbacks c ++ [(id, fn)]; mc_store := mc_store c;
               mc_trace := mc_trace c ++ [ERegistered id]; mc_stack := rest; mc_threads := mc_threads c; mc_panicked := mc_panicked c |}
  end.
(** One step of the current goroutine.  rx/mono/mono.go 107-197 *)
Definition do_item (i : mitem) (rest : list mitem) (c : mconf) : mconf :=
  match i with
  | IAct (ACall s k) => do_call s k rest c
  | IAct (ASubscribe h) =>                                                  (* 107-118 *)
      let s := List.length (mc_subs c) in
      {| mc_subs := mc_subs c ++ [{| ms_closed := false; ms_value := None; ms_err := None; ms_signal := SigComplete; ms_h := h |}];
         mc_cur := Some s; mc_callbacks := mc_callbacks c; mc_store := mc_store c; mc_trace := mc_trace c;
         mc_stack := acts (source s) ++ rest; mc_threads := mc_threads c; mc_panicked := mc_panicked c |}
  | IAct (ANotify id fn) => do_notify id fn rest c
  | IAct AGet =>                                                            (* 137-142 *)
      match match mc_cur c with Some s => nth_error (mc_subs c) s | None => None end with
      | Some m => if ms_closed m then emit c (mc_subs c) [EGot (ms_value m) (ms_err m)] rest else panic c
      | None => panic c
      end
  | IAct (AObs o) => emit c (mc_subs c) [EObs o] rest
  | IAct (ADo k) =>
      match code k (mc_trace c) (mc_store c) with
      | Some (st, l) =>
          {| mc_subs := mc_subs c; mc_cur := mc_cur c; mc_callbacks := mc_callbacks c; mc_store := st; mc_trace := mc_trace c;
             mc_stack := acts l ++ rest; mc_threads := mc_threads c; mc_panicked := mc_panicked c |}
      | None => panic c
      end
  | IFinally s g => do_finally s g rest c
  | ILoop s g => emit c (mc_subs c) [] (map (fun cb => IFire (fst cb) (snd cb) g) (mc_callbacks c) ++ rest)
  | IFire id fn g => emit c (mc_subs c) [EFired id g] (acts (fn (mc_trace c ++ [EFired id g]) g) ++ rest)
  end.
(** One step: the current goroutine goes on; when it is done, goroutine [i]
    starts.  Nothing happens after a panic.  rx/mono/mono.go 107-197 *)
Definition mstep (c : mconf) (i : nat) : mconf :=
  if mc_panicked c then c else
  match mc_stack c with
  | it :: rest => do_item it rest c
  | [] =>
      match nth_error (mc_threads c) i with
      | Some t =>
          {| mc_subs := mc_subs c; mc_cur := mc_cur c; mc_callbacks := mc_callbacks c; mc_store := mc_store c; mc_trace := mc_trace c;
             mc_stack := acts t; mc_threads := firstn i (mc_threads c) ++ skipn (S i) (mc_threads c); mc_panicked := mc_panicked c |}
      | None => c
      end
  end.
(** rx/mono/mono.go 107-197 *)
Definition mrun (sched : list nat) (c : mconf) : mconf := fold_left mstep sched c.
(** rx/mono/mono.go 95-105 *)
Definition minit (st : St) (threads : list (list mact)) : mconf :=
  {| mc_subs := []; mc_cur := None; mc_callbacks := []; mc_store := st; mc_trace := []; mc_stack := [];
     mc_threads := threads; mc_panicked := false |}.
End Mono.
Arguments mcall : clear implicits.
Arguments mevent : clear implicits.
Arguments mact : clear implicits.
Arguments handlers : clear implicits.
Arguments mitem : clear implicits.
Arguments msub : clear implicits.
Arguments mconf : clear implicits.

(** [Map], rx/mono/mono.go 199-230: the subscription made on the mapped mono.  [tx] returns a
    value or an error; what the subscriber [h] sees is recorded as observation. *)
Inductive dobs (D E : Type) := DSuccess (d : D) | DError (e : E).
Arguments DSuccess {D E}. Arguments DError {D E}.
(** rx/mono/mono.go 199-230 *)
Definition dact (V E D C : Type) := mact V E (dobs D E) C.
(** rx/mono/mono.go 199-230 *)
Definition dev (V E D : Type) := mevent V E (dobs D E).
(** rx/mono/mono.go 199-230 *)
Definition map_handlers {V E D C} (tx : V -> D + E)
  (on_success : option (list (dev V E D) -> D -> list (dact V E D C)))
  (on_error : option (list (dev V E D) -> E -> list (dact V E D C)))
  (fin : option (list (dev V E D) -> signal -> list (dact V E D C))) : handlers V E (dobs D E) C :=
  Handlers
    (Some (fun t v =>
       match tx v with
       | inr e => match on_error with Some f => AObs (DError e) :: f t e | None => [] end
       | inl d => match on_success with Some f => AObs (DSuccess d) :: f t d | None => [] end
       end))
    (match on_error with Some f => Some (fun t e => AObs (DError e) :: f t e) | None => None end)
    fin.
(** [mapper.Get], rx/mono/mono.go 240-247, on the result of the source's Get; [zero] is the
    zero value of [V], the field [value] before it is set. *)
Definition map_get {V E D} (zero : V) (tx : V -> D + E) (v : option V) (e : option E) : D + E :=
  match e with Some e => inr e | None => tx (match v with Some v => v | None => zero end) end.

(** ** processor.go.  The store: the sink, once there is a subscription, and
    the last success and the last error before it (8-13). *)
(** rx/mono/processor.go 8-13 *)
Record pstore (V E : Type) := { ps_sink : option nat; ps_success : option V; ps_err : option E }.
Arguments ps_sink {V E}. Arguments ps_success {V E}. Arguments ps_err {V E}.
(** rx/mono/processor.go 15-16 *)
Definition pstore0 {V E} : pstore V E := {| ps_sink := None; ps_success := None; ps_err := None |}.
(** The function given to [Create] (17-24), [Success] (29-35), [Error] (37-43).  rx/mono/processor.go 15-43 *)
Inductive pcode (V E : Type) := PSource (s : nat) | PResult (r : V + E).
Arguments PSource {V E}. Arguments PResult {V E}.
(** rx/mono/processor.go 29-43 *)
Definition result_call {V E} (r : V + E) : mcall V E := match r with inl v => CSuccess v | inr e => CError e end.
(** rx/mono/processor.go 15-43 *)
Definition proc_code {V E O} (k : pcode V E) (_ : list (mevent V E O)) (p : pstore V E) : option (pstore V E * list (mact V E O (pcode V E))) :=
  match k with
  | PSource s =>
      Some ({| ps_sink := Some s; ps_success := ps_success p; ps_err := ps_err p |},
            match ps_success p, ps_err p with
            | Some v, _ => [ACall s (CSuccess v)]
            | None, Some e => [ACall s (CError e)]
            | None, None => []
            end)
  | PResult r =>
      match ps_sink p with
      | Some s => Some (p, [ACall s (result_call r)])
      | None => Some (match r with
                      | inl v => {| ps_sink := None; ps_success := Some v; ps_err := ps_err p |}
                      | inr e => {| ps_sink := None; ps_success := ps_success p; ps_err := Some e |}
                      end, [])
      end
  end.
(** rx/mono/processor.go 17-24 *)
Definition proc_source {V E O} (s : nat) : list (mact V E O (pcode V E)) := [ADo (PSource s)].
