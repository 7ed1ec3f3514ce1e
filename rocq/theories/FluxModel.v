(** Model of /repo/rx/flux: flux.go 67-210 (Create), flux_host.go 20-26 and
    flux_webassembly.go 11-13 (doRequest), flux.go 216-256 (Map), slice.go,
    response.go and processor.go.

    One flux, any number of subscriptions; the machine is the one of
    MonoModel.v: goroutines run one at a time to completion in any order, and
    callbacks may call back in at any depth.  On the host doRequest starts a
    goroutine; its mutex has no effect here because goroutines do not
    interleave inside a call (a limitation of the model; RespModel.v has the
    steps of the request goroutines and the mutex).  [subscriber.Close]
    (212-214) is not reachable through any interface and is left out. *)
From Verif Require Import Base MonoModel.

Section Flux.
Context {V E O C St : Type}.

(** Calls of the sink (rx/flux/flux.go 31-36, without OnSubscribe) and of [Cancel] (rx.go 44). *)
Inductive fcall := KNext (v : V) | KComplete | KError (e : E) | KCancel.
(** What is observed of subscription [s]: calls; calls of the subscriber's
    callbacks; assignments of the signal; whether the subscription announced by
    the source has a cancel action; requests made; the source's request and
    cancel actions being run; registrations of and calls to notifications.  rx/flux/flux.go 67-210 *)
Inductive fevent :=
| VCalled (s : nat) (k : fcall)
| VOnNext (s : nat) (v : V) | VOnComplete (s : nat) | VOnError (s : nat) (e : E) | VOnRequest (s : nat) | VFinally (s : nat) (g : signal)
| VSignal (s : nat) (g : signal)
| VSubscribed (s : nat) (cancel : bool) | VDemand (s : nat) (n : Z) | VSrcRequest (s : nat) (n : Z) | VSrcCancel (s : nat)
| VRegistered (id : N) | VFired (id : N) (g : signal)
| VObs (o : O).

(** rx/flux/flux.go 67-210 *)
Inductive fact :=
| FCall (s : nat) (k : fcall)
| FOnSubscribe (s : nat) (request : option (list fevent -> Z -> list fact)) (cancel : option (list fevent -> list fact))
| FRequest (s : nat) (n : Z)
| FSubscribe (h : fhandlers)
| FNotify (id : N) (fn : list fevent -> signal -> list fact)
| FObs (o : O)
| FDo (c : C)
(** 17-24 *)
with fhandlers := FHandlers
  (on_next : option (list fevent -> V -> list fact))
  (on_complete : option (list fevent -> list fact))
  (on_error : option (list fevent -> E -> list fact))
  (on_request : option (list fevent -> nat -> list fact))
  (fin : option (list fevent -> signal -> list fact))
  (no_request : bool).
(** rx/flux/flux.go 17-24 *)
Definition fh_next (h : fhandlers) := let (a, _, _, _, _, _) := h in a.
(** rx/flux/flux.go 17-24 *)
Definition fh_complete (h : fhandlers) := let (_, a, _, _, _, _) := h in a.
(** rx/flux/flux.go 17-24 *)
Definition fh_error (h : fhandlers) := let (_, _, a, _, _, _) := h in a.
(** rx/flux/flux.go 17-24 *)
Definition fh_request (h : fhandlers) := let (_, _, _, a, _, _) := h in a.
(** rx/flux/flux.go 17-24 *)
Definition fh_finally (h : fhandlers) := let (_, _, _, _, a, _) := h in a.
(** rx/flux/flux.go 17-24 *)
Definition fh_norequest (h : fhandlers) := let (_, _, _, _, _, a) := h in a.

(** rx/flux/flux.go 109-125 *)
Record fsub := { fs_closed : bool; fs_n : Z; fs_err : option E;
  fs_request : option (list fevent -> Z -> list fact); fs_cancel : option (list fevent -> list fact);
  fs_signal : signal; fs_h : fhandlers }.
(** rx/flux/flux.go 79-210 *)
Inductive fitem :=
| FAct (a : fact)
| FAfterNext (s : nat) | FHandle (s : nat)
| FFinal (s : nat) (g : signal) | FLoop (s : nat) (g : signal)
| FFire (id : N) (fn : list fevent -> signal -> list fact) (g : signal)
| FReq (s : nat) (n : Z) | FCancelFin (s : nat).
(** rx/flux/flux.go 73-77 *)
Record fconf := {
  fc_subs : list fsub; fc_cur : option nat;
  fc_callbacks : list (N * (list fevent -> signal -> list fact));
  fc_store : St; fc_trace : list fevent;
  fc_stack : list fitem; fc_threads : list (list fitem); fc_panicked : bool }.

(** On WebAssembly requests are synchronous and [int] has 32 bits. *)
Variable wasm : bool.
Variable source : nat -> list fact.
Variable code : C -> list fevent -> St -> option (St * list fact).

(** rx/flux/flux.go 111 *)
Definition wrap_int (z : Z) : Z :=
  let m := if wasm then 2147483648%Z else 9223372036854775808%Z in ((z + m) mod (2 * m) - m)%Z.
(** rx/flux/flux.go 79-210 *)
Definition facts (l : list fact) : list fitem := map FAct l.
(** rx/flux/flux.go 79-210 *)
Definition femit (c : fconf) (subs : list fsub) (ev : list fevent) (stack : list fitem) (new : list (list fitem)) : fconf :=
  {| fc_subs := subs; fc_cur := fc_cur c; fc_callbacks := fc_callbacks c; fc_store := fc_store c;
     fc_trace := fc_trace c ++ ev; fc_stack := stack; fc_threads := fc_threads c ++ new; fc_panicked := fc_panicked c |}.
(** rx/flux/flux.go 79-210 *)
Definition fpanic (c : fconf) : fconf :=
  {| fc_subs := fc_subs c; fc_cur := fc_cur c; fc_callbacks := fc_callbacks c; fc_store := fc_store c;
     fc_trace := fc_trace c; fc_stack := fc_stack c; fc_threads := fc_threads c; fc_panicked := true |}.
(** rx/flux/flux.go 141-162 *)
Definition set_closed (m : fsub) (e : option E) : fsub :=
  {| fs_closed := true; fs_n := fs_n m; fs_err := e; fs_request := fs_request m; fs_cancel := fs_cancel m; fs_signal := fs_signal m; fs_h := fs_h m |}.
(** rx/flux/flux.go 127-139, 195-200 *)
Definition set_n (m : fsub) (n : Z) : fsub :=
  {| fs_closed := fs_closed m; fs_n := wrap_int n; fs_err := fs_err m; fs_request := fs_request m; fs_cancel := fs_cancel m; fs_signal := fs_signal m; fs_h := fs_h m |}.

(** [Next] (127-139), [Complete] (141-150), [Error] (152-162), [Cancel] (202-210).  rx/flux/flux.go 127-162, 202-210 *)
Definition do_fcall (s : nat) (k : fcall) (rest : list fitem) (c : fconf) : fconf :=
  match nth_error (fc_subs c) s with
  | None => femit c (fc_subs c) [] rest []
  | Some m =>
      match k with
      | KCancel =>
          let subs := mset (fc_subs c) s (set_closed m (fs_err m)) in
          match fs_cancel m with
          | Some f => let ev := [VCalled s k; VSrcCancel s] in
                      femit c subs ev (facts (f (fc_trace c ++ ev)) ++ FCancelFin s :: rest) []
          | None => femit c subs [VCalled s k] (FCancelFin s :: rest) []
          end
      | _ =>
          if fs_closed m then femit c (fc_subs c) [VCalled s k] rest []
          else match k with
               | KNext v =>
                   let subs := mset (fc_subs c) s (set_n m (fs_n m - 1)) in
                   match fh_next (fs_h m) with
                   | Some f => let ev := [VCalled s k; VOnNext s v] in
                               femit c subs ev (facts (f (fc_trace c ++ ev) v) ++ FAfterNext s :: rest) []
                   | None => femit c subs [VCalled s k] (FAfterNext s :: rest) []
                   end
               | KComplete =>
                   let subs := mset (fc_subs c) s (set_closed m (fs_err m)) in
                   match fh_complete (fs_h m) with
                   | Some f => let ev := [VCalled s k; VOnComplete s] in
                               femit c subs ev (facts (f (fc_trace c ++ ev)) ++ FFinal s SigComplete :: rest) []
                   | None => femit c subs [VCalled s k] (FFinal s SigComplete :: rest) []
                   end
               | KError e =>
                   let subs := mset (fc_subs c) s (set_closed m (Some e)) in
                   match fh_error (fs_h m) with
                   | Some f => let ev := [VCalled s k; VOnError s e] in
                               femit c subs ev (facts (f (fc_trace c ++ ev) e) ++ FFinal s SigError :: rest) []
                   | None => femit c subs [VCalled s k] (FFinal s SigError :: rest) []
                   end
               | KCancel => c
               end
      end
  end.
(** [finally], rx/flux/flux.go 164-172 *)
Definition do_ffinal (s : nat) (g : signal) (rest : list fitem) (c : fconf) : fconf :=
  match nth_error (fc_subs c) s with
  | None => femit c (fc_subs c) [] rest []
  | Some m =>
      let m' := {| fs_closed := fs_closed m; fs_n := fs_n m; fs_err := fs_err m; fs_request := fs_request m; fs_cancel := fs_cancel m; fs_signal := g; fs_h := fs_h m |} in
      match fh_finally (fs_h m) with
      | Some f => let ev := [VSignal s g; VFinally s g] in
                  femit c (mset (fc_subs c) s m') ev (facts (f (fc_trace c ++ ev) g) ++ FLoop s g :: rest) []
      | None => femit c (mset (fc_subs c) s m') [VSignal s g] (FLoop s g :: rest) []
      end
  end.
(** Second half of [Cancel], rx/flux/flux.go 207-209 *)
Definition do_cancelfin (s : nat) (rest : list fitem) (c : fconf) : fconf :=
  match nth_error (fc_subs c) s with
  | None => femit c (fc_subs c) [] rest []
  | Some m =>
      match fh_finally (fs_h m) with
      | Some f => let ev := [VFinally s SigCancel] in femit c (fc_subs c) ev (facts (f (fc_trace c ++ ev) SigCancel) ++ rest) []
      | None => femit c (fc_subs c) [] rest []
      end
  end.
(** [OnSubscribe], rx/flux/flux.go 174-182, and [Request], 195-200: the last step of both is
    [doRequest], by a call or by a goroutine. *)
Definition do_onsubscribe (s : nat) (rq : option (list fevent -> Z -> list fact)) (cn : option (list fevent -> list fact)) (rest : list fitem) (c : fconf) : fconf :=
  match nth_error (fc_subs c) s with
  | None => femit c (fc_subs c) [] rest []
  | Some m =>
      if fs_closed m then femit c (fc_subs c) [] rest []
      else
        let m' := {| fs_closed := fs_closed m; fs_n := fs_n m; fs_err := fs_err m; fs_request := rq; fs_cancel := cn; fs_signal := fs_signal m; fs_h := fs_h m |} in
        let subs := mset (fc_subs c) s m' in
        let ev := [VSubscribed s (if cn then true else false)] in
        if (fs_n m >? 0)%Z then
          if wasm then femit c subs ev (FReq s (fs_n m) :: rest) []
          else femit c subs ev rest [[FReq s (fs_n m)]]
        else femit c subs ev rest []
  end.
(** rx/flux/flux.go 195-200 *)
Definition do_request (s : nat) (n : Z) (rest : list fitem) (c : fconf) : fconf :=
  match nth_error (fc_subs c) s with
  | None => femit c (fc_subs c) [] rest []
  | Some m =>
      let subs := mset (fc_subs c) s (set_n m (fs_n m + n)) in
      match fs_request m with
      | Some _ => if wasm then femit c subs [VDemand s n] (FReq s n :: rest) []
                  else femit c subs [VDemand s n] rest [[FReq s n]]
      | None => femit c subs [VDemand s n] rest []
      end
  end.
(** The call [s.sub.Request(n)]; calling a nil function panics.  rx/flux/flux_host.go 20-26 *)
Definition do_req (s : nat) (n : Z) (rest : list fitem) (c : fconf) : fconf :=
  match nth_error (fc_subs c) s with
  | None => femit c (fc_subs c) [] rest []
  | Some m =>
      match fs_request m with
      | Some f => let ev := [VSrcRequest s n] in femit c (fc_subs c) ev (facts (f (fc_trace c ++ ev) n) ++ rest) []
      | None => fpanic c
      end
  end.
(** [handleOnSubscribe], rx/flux/flux.go 184-193; rx.RequestMax is 2^31-1. *)
Definition do_handle (s : nat) (rest : list fitem) (c : fconf) : fconf :=
  match nth_error (fc_subs c) s with
  | None => femit c (fc_subs c) [] rest []
  | Some m =>
      if fh_norequest (fs_h m) then femit c (fc_subs c) [] rest []
      else match fh_request (fs_h m) with
           | Some f => let ev := [VOnRequest s] in femit c (fc_subs c) ev (facts (f (fc_trace c ++ ev) s) ++ rest) []
           | None => femit c (fc_subs c) [] (FAct (FRequest s 2147483647) :: rest) []
           end
  end.
(** [Notify], rx/flux/flux.go 101-107 *)
Definition do_fnotify (id : N) (fn : list fevent -> signal -> list fact) (rest : list fitem) (c : fconf) : fconf :=
  match match fc_cur c with Some s => nth_error (fc_subs c) s | None => None end with
  | Some m =>
      if fs_closed m then femit c (fc_subs c) [VRegistered id] (FFire id fn (fs_signal m) :: rest) []
      else {| fc_subs := fc_subs c; fc_cur := fc_cur c; fc_callbacks := fc_callbacks c ++ [(id, fn)]; fc_store := fc_store c;
              fc_trace := fc_trace c ++ [VRegistered id]; fc_stack := rest; fc_threads := fc_threads c; fc_panicked := fc_panicked c |}
  | None => {| fc_subs := fc_subs c; fc_cur := fc_cur c; fc_callbacks := fc_callbacks c ++ [(id, fn)]; fc_store := fc_store c;
               fc_trace := fc_trace c ++ [VRegistered id]; fc_stack := rest; fc_threads := fc_threads c; fc_panicked := fc_panicked c |}
  end.
(** rx/flux/flux.go 79-210 *)
Definition do_fitem (i : fitem) (rest : list fitem) (c : fconf) : fconf :=
  match i with
  | FAct (FCall s k) => do_fcall s k rest c
  | FAct (FOnSubscribe s rq cn) => do_onsubscribe s rq cn rest c
  | FAct (FRequest s n) => do_request s n rest c
  | FAct (FSubscribe h) =>                                                  (* 79-93 *)
      let s := List.length (fc_subs c) in
      {| fc_subs := fc_subs c ++ [{| fs_closed := false; fs_n := 0; fs_err := None; fs_request := None; fs_cancel := None; fs_signal := SigComplete; fs_h := h |}];
         fc_cur := Some s; fc_callbacks := fc_callbacks c; fc_store := fc_store c; fc_trace := fc_trace c;
         fc_stack := facts (source s) ++ FHandle s :: rest; fc_threads := fc_threads c; fc_panicked := fc_panicked c |}
  | FAct (FNotify id fn) => do_fnotify id fn rest c
  | FAct (FObs o) => femit c (fc_subs c) [VObs o] rest []
  | FAct (FDo k) =>
      match code k (fc_trace c) (fc_store c) with
      | Some (st, l) =>
          {| fc_subs := fc_subs c; fc_cur := fc_cur c; fc_callbacks := fc_callbacks c; fc_store := st; fc_trace := fc_trace c;
             fc_stack := facts l ++ rest; fc_threads := fc_threads c; fc_panicked := fc_panicked c |}
      | None => fpanic c
      end
  | FAfterNext s =>                                                         (* 136-138 *)
      match nth_error (fc_subs c) s with
      | Some m => femit c (fc_subs c) [] (if (fs_n m =? 0)%Z then FHandle s :: rest else rest) []
      | None => femit c (fc_subs c) [] rest []
      end
  | FHandle s => do_handle s rest c
  | FFinal s g => do_ffinal s g rest c
  | FLoop s g => femit c (fc_subs c) [] (map (fun cb => FFire (fst cb) (snd cb) g) (fc_callbacks c) ++ rest) []
  | FFire id fn g => femit c (fc_subs c) [VFired id g] (facts (fn (fc_trace c ++ [VFired id g]) g) ++ rest) []
  | FReq s n => do_req s n rest c
  | FCancelFin s => do_cancelfin s rest c
  end.
(** One step: the current goroutine goes on; when it is done, goroutine [i]
    starts.  Nothing happens after a panic.  rx/flux/flux.go 79-210 *)
Definition fstep (c : fconf) (i : nat) : fconf :=
  if fc_panicked c then c else
  match fc_stack c with
  | it :: rest => do_fitem it rest c
  | [] =>
      match nth_error (fc_threads c) i with
      | Some t =>
          {| fc_subs := fc_subs c; fc_cur := fc_cur c; fc_callbacks := fc_callbacks c; fc_store := fc_store c; fc_trace := fc_trace c;
             fc_stack := t; fc_threads := firstn i (fc_threads c) ++ skipn (S i) (fc_threads c); fc_panicked := fc_panicked c |}
      | None => c
      end
  end.
(** rx/flux/flux.go 79-210 *)
Definition frun (sched : list nat) (c : fconf) : fconf := fold_left fstep sched c.
(** rx/flux/flux.go 67-77 *)
Definition finit (st : St) (threads : list (list fact)) : fconf :=
  {| fc_subs := []; fc_cur := None; fc_callbacks := []; fc_store := st; fc_trace := []; fc_stack := [];
     fc_threads := map facts threads; fc_panicked := false |}.
End Flux.
Arguments fcall : clear implicits.
Arguments fevent : clear implicits.
Arguments fact : clear implicits.
Arguments fhandlers : clear implicits.
Arguments fitem : clear implicits.
Arguments fsub : clear implicits.
Arguments fconf : clear implicits.

(** [Map], rx/flux/flux.go 232-256.  [m.f.(closable)] (236) never holds: neither [*flux] nor
    any other Flux has a method Close (the subscriber does), so the source is
    not closed.  What the subscriber of the mapped flux sees is recorded. *)
Inductive fobs (D E : Type) := ONext (d : D) | OComplete | OError (e : E) | OFinally (g : signal).
Arguments ONext {D E}. Arguments OComplete {D E}. Arguments OError {D E}. Arguments OFinally {D E}.
(** rx/flux/flux.go 232-256 *)
Definition fdact (V E D C : Type) := fact V E (fobs D E) C.
(** rx/flux/flux.go 232-256 *)
Definition fdev (V E D : Type) := fevent V E (fobs D E).
(** rx/flux/flux.go 232-256 *)
Definition fmap_handlers {V E D C} (tx : V -> D + E)
  (on_next : option (list (fdev V E D) -> D -> list (fdact V E D C)))
  (on_complete : option (list (fdev V E D) -> list (fdact V E D C)))
  (on_error : option (list (fdev V E D) -> E -> list (fdact V E D C)))
  (on_request : option (list (fdev V E D) -> nat -> list (fdact V E D C)))
  (fin : option (list (fdev V E D) -> signal -> list (fdact V E D C)))
  (no_request : bool) : fhandlers V E (fobs D E) C :=
  FHandlers
    (Some (fun t v =>
       match tx v with
       | inr e => (match on_error with Some f => FObs (OError e) :: f t e | None => [] end) ++
                  (match fin with Some f => FObs (OFinally SigError) :: f t SigError | None => [] end)
       | inl d => match on_next with Some f => FObs (ONext d) :: f t d | None => [] end
       end))
    (match on_complete with Some f => Some (fun t => FObs OComplete :: f t) | None => None end)
    (match on_error with Some f => Some (fun t e => FObs (OError e) :: f t e) | None => None end)
    on_request
    (match fin with Some f => Some (fun t g => FObs (OFinally g) :: f t g) | None => None end)
    no_request.

(** ** slice.go: [FromSlice].  The store is the captured variable [values];
    [SliceLoop s i] is the loop of the request function from counter [i] on. *)
(** rx/flux/slice.go 3-18 *)
Inductive scode := SliceLoop (s : nat) (i : Z).
(** rx/flux/slice.go 6-15 *)
Definition slice_code {V E O} (k : scode) (_ : list (fevent V E O)) (values : list V) : option (list V * list (fact V E O scode)) :=
  let (s, i) := k in
  match values with
  | v :: values' => if (i >? 0)%Z then Some (values', [FCall s (KNext v); FDo (SliceLoop s (i - 1))]) else Some (values, [])
  | [] => Some ([], [FCall s KComplete])
  end.
(** rx/flux/slice.go 3-18 *)
Definition slice_source {V E O} (s : nat) : list (fact V E O scode) :=
  [FOnSubscribe s (Some (fun _ n => [FDo (SliceLoop s n)])) None].

(** ** response.go: [SliceResponse], used as the request function of a source.
    The store is the captured variable [slice], which is read at every
    iteration and shortened only after the loop. *)
(** rx/flux/response.go 3-17 *)
Inductive rcode := RespStart (s : nat) (n : Z) | RespLoop (s : nat) (i num : nat).
(** rx/flux/response.go 4-16 *)
Definition resp_code {V E O} (k : rcode) (_ : list (fevent V E O)) (slice : list V) : option (list V * list (fact V E O rcode)) :=
  match k with
  | RespStart s n =>
      if (n <? 0)%Z then None                                              (* slice[num:] with num < 0 *)
      else Some (slice, [FDo (RespLoop s 0 (Nat.min (List.length slice) (Z.to_nat n)))])
  | RespLoop s i num =>
      if (i <? num)%nat then
        match nth_error slice i with
        | Some v => Some (slice, [FCall s (KNext v); FDo (RespLoop s (S i) num)])
        | None => None
        end
      else if (num <=? List.length slice)%nat then
        Some (skipn num slice, if Nat.eqb (List.length (skipn num slice)) 0 then [FCall s KComplete] else [])
      else None
  end.
(** rx/flux/response.go 3-17 *)
Definition resp_source {V E O} (s : nat) : list (fact V E O rcode) :=
  [FOnSubscribe s (Some (fun _ n => [FDo (RespStart s n)])) None].

(** ** processor.go: the store holds the sink and the last subscription
    announced before it existed; everything else before it is dropped (27-51).
    Subscriptions are named; [subs] gives their request and cancel functions. *)
(** rx/flux/processor.go 14-51 *)
Inductive fpcode (V E : Type) := FPSource (s : nat) | FPCall (k : fcall V E) | FPOnSubscribe (id : N).
Arguments FPSource {V E}. Arguments FPCall {V E}. Arguments FPOnSubscribe {V E}.
(** rx/flux/processor.go 14-51 *)
Definition fproc_code {V E O}
  (subs : N -> option (list (fevent V E O) -> Z -> list (fact V E O (fpcode V E))) * option (list (fevent V E O) -> list (fact V E O (fpcode V E))))
  (k : fpcode V E) (_ : list (fevent V E O)) (st : option nat * option N) : option ((option nat * option N) * list (fact V E O (fpcode V E))) :=
  let (sink, sub) := st in
  match k with
  | FPSource s => Some ((Some s, None), match sub with Some id => [FOnSubscribe s (fst (subs id)) (snd (subs id))] | None => [] end)
  | FPCall k => Some (st, match sink with Some s => [FCall s k] | None => [] end)
  | FPOnSubscribe id =>
      match sink with
      | Some s => Some (st, [FOnSubscribe s (fst (subs id)) (snd (subs id))])
      | None => Some ((sink, Some id), [])
      end
  end.
(** rx/flux/processor.go 16-22 *)
Definition fproc_source {V E O} (s : nat) : list (fact V E O (fpcode V E)) := [FDo (FPSource s)].
