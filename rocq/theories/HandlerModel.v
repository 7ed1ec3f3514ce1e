(** Models of /repo/proxy/flux.go, /repo/proxy/mono.go (remote calls),
    /repo/handler/caller.go 66-111 and /repo/handler/handler.go: one end of a
    connection.

    Each method, and each goroutine started with [go], is one step; what a
    handler's mono or flux does after it was subscribed is the subject of
    MonoModel.v and FluxModel.v (see [answer] and [emit] below).  Contexts are not
    modelled.  [int] has 64 bits. *)
From Verif Require Import Base FramesModel WasmModel InvokeModel LookupModel.
From Verif Require MonoModel FluxModel.

(** payload.Payload; payload/payload.go 3-22 *)
Record pay := { py_data : bytes; py_meta : bytes }.
(** proxy/flux.go 81, 113 *)
Definition to_u32 (n : Z) : N := Z.to_N (n mod 4294967296)%Z.

(** ** proxy/flux.go 30-41; the embedded processor is not part of this state. *)
(** proxy/flux.go 30-41 *)
Record sflux := { sf_req : request; sf_in : bool; sf_first : bool; sf_complete : bool }.
(** Events of the input flux.  proxy/flux.go 86-108 *)
Inductive inev := InNext (p : pay) | InComplete | InError (e : bytes).
(** proxy/flux.go 86-108 *)
Definition in_frame (sid : N) (e : inev) : frame :=
  match e with
  | InNext p => FPayload {| pl_stream := sid; pl_metadata := py_meta p; pl_data := py_data p; pl_follows := false; pl_complete := false; pl_next := true |}
  | InComplete => FPayload {| pl_stream := sid; pl_metadata := []; pl_data := []; pl_follows := false; pl_complete := true; pl_next := false |}
  | InError e => FError {| er_stream := sid; er_code := 0; er_data := e |}
  end.
(** proxy/flux.go 81 *)
Definition set_initial (r : request) (n : N) : request :=
  {| rq_type := rq_type r; rq_stream := rq_stream r; rq_metadata := rq_metadata r; rq_data := rq_data r;
     rq_follows := rq_follows r; rq_complete := rq_complete r; rq_initial := n |}.
(** [Request], proxy/flux.go 76-116 (the subscription of the input, 85-109, is in effect from
    then on: [sf_input]) *)
Definition sf_request (n : Z) (s : sflux) : sflux * list frame :=
  if sf_complete s then (s, [])
  else if sf_first s then
    let r := set_initial (sf_req s) (to_u32 n) in
    ({| sf_req := r; sf_in := sf_in s; sf_first := false; sf_complete := false |}, [FRequest r])
  else (s, [FRequestN {| rn_stream := rq_stream (sf_req s); rn_n := to_u32 n |}]).
(** proxy/flux.go 118-122 *)
Definition sf_cancel (s : sflux) : list frame := [FCancel {| cn_stream := rq_stream (sf_req s) |}].
(** proxy/flux.go 55-58 *)
Definition sf_on_complete (s : sflux) : sflux :=
  {| sf_req := sf_req s; sf_in := sf_in s; sf_first := sf_first s; sf_complete := true |}.
(** proxy/flux.go 85-108 *)
Definition sf_input (e : inev) (s : sflux) : list frame :=
  if sf_in s && negb (sf_first s) then [in_frame (rq_stream (sf_req s)) e] else [].
(** [Flux], proxy/flux.go 12-28 *)
Definition sf_new (r : request) (input : bool) : sflux := {| sf_req := r; sf_in := input; sf_first := true; sf_complete := false |}.

(** ** One end of a connection *)
(** Streams: proxy/mono.go 24-32, proxy/flux.go, and handler/handler.go 689-695 (is
    [sub] set, is [sink] set). *)
Inductive sobj := OMono (r : request) | OFlux (s : sflux) | OReq (k : kind) (sid : N) (sub sink : bool).
(** handler/handler.go 715-725 *)
Inductive scall := SNext (p : pay) | SComplete | SError (e : bytes).
(** The trace.  Calls made by the application at this end: a remote call was
    made (with its stream id and whether it has an input), it was subscribed,
    [Request] or [Cancel] of its subscription was called, its input produced an
    event.  Frames received and sent.  Calls passed on by a stream (to the processor
    behind a remote call, to the sink behind a channel's input), and the return of
    such a completion ([HSettled]); requests passed on to the subscription behind
    a stream; handlers called; HandleFrame returned an error.  handler/handler.go 110-410 *)
Inductive hevent :=
| HCalled (o : N) (k : kind) (sid : N) (p : pay) (input : bool)
| HSubscribed (o : N) | HAsked (o : N) (n : Z) | HDropped (o : N) | HFed (o : N) (ev : inev)
| HRecv (f : frame) | HSent (f : frame)
| HCall (o : N) (k : scall) | HSettled (o : N) | HDemand (o : N) (n : Z)
| HInvoke (k : kind) (sid h : N) (p : pay) | HRejected.
(** Goroutines started by HandleFrame (143, 151, 159, 167, 172), and the rest of
    a remote flux's OnComplete (proxy/flux.go 57): the callbacks of the completion
    run before it, so other calls may come in between.  That HandleFrame returns
    only after it is not modelled.  handler/handler.go 143-172 *)
Inductive job := JHandle (k : kind) (r : request) | JDemand (o : N) (n : Z) | JSettle (o : N).
(** handler/handler.go 22-45 and the streams. *)
Record ep := { ep_ids : N; ep_guest : lookup; ep_host : lookup; ep_table : option (list oper);
  ep_objs : list sobj; ep_jobs : list job; ep_trace : list hevent }.
(** handler/handler.go 61-72 *)
Definition ep_init : ep :=
  {| ep_ids := 0; ep_guest := lookup_init; ep_host := lookup_init; ep_table := None; ep_objs := []; ep_jobs := []; ep_trace := [] |}.
(** handler/handler.go 110-410 *)
Definition ep_emit (ev : list hevent) (e : ep) : ep :=
  {| ep_ids := ep_ids e; ep_guest := ep_guest e; ep_host := ep_host e; ep_table := ep_table e;
     ep_objs := ep_objs e; ep_jobs := ep_jobs e; ep_trace := ep_trace e ++ ev |}.
(** handler/handler.go 143-172 *)
Definition ep_job (j : job) (e : ep) : ep :=
  {| ep_ids := ep_ids e; ep_guest := ep_guest e; ep_host := ep_host e; ep_table := ep_table e;
     ep_objs := ep_objs e; ep_jobs := ep_jobs e ++ [j]; ep_trace := ep_trace e |}.
(** handler/handler.go 242-410 *)
Definition ep_new (o : sobj) (e : ep) : ep :=
  {| ep_ids := ep_ids e; ep_guest := ep_guest e; ep_host := ep_host e; ep_table := ep_table e;
     ep_objs := ep_objs e ++ [o]; ep_jobs := ep_jobs e; ep_trace := ep_trace e |}.
(** handler/handler.go 242-410 *)
Definition ep_set (o : N) (x : sobj) (e : ep) : ep :=
  {| ep_ids := ep_ids e; ep_guest := ep_guest e; ep_host := ep_host e; ep_table := ep_table e;
     ep_objs := upd (ep_objs e) (N.to_nat o) (fun _ => x); ep_jobs := ep_jobs e; ep_trace := ep_trace e |}.
(** handler/handler.go 82-104 *)
Definition ep_obj (o : N) (e : ep) : option sobj := nth_error (ep_objs e) (N.to_nat o).
(** handler/handler.go 82-104 *)
Definition ep_streams (sid : N) (e : ep) : lookup := if N.odd sid then ep_guest e else ep_host e.
(** handler/handler.go 82-104 *)
Definition ep_on (sid : N) (f : lookup -> lookup) (e : ep) : ep :=
  {| ep_ids := ep_ids e; ep_guest := if N.odd sid then f (ep_guest e) else ep_guest e; ep_host := if N.odd sid then ep_host e else f (ep_host e);
     ep_table := ep_table e; ep_objs := ep_objs e; ep_jobs := ep_jobs e; ep_trace := ep_trace e |}.
(** handler/handler.go 82-88 *)
Definition register (sid o : N) : ep -> ep := ep_on sid (lookup_add (sid, o)).
(** handler/handler.go 90-96 *)
Definition remove_stream (sid : N) : ep -> ep := ep_on sid (lookup_remove sid).
(** handler/handler.go 98-104 *)
Definition get_stream (sid : N) (e : ep) : option N :=
  match lookup_get (ep_streams sid e) sid with Some s => Some (snd s) | None => None end.

(** OnNext, OnComplete, OnError of a stream (proxy/mono.go 42-52, proxy/flux.go
    51-62, handler.go 715-725): a nil sink panics. *)
Definition stream_call (o : N) (k : scall) (e : ep) : res ep :=
  match ep_obj o e with
  | Some (OMono _) => match k with SComplete => Ok e | _ => Ok (ep_emit [HCall o k] e) end
  | Some (OFlux s) => match k with
                      | SComplete => Ok (ep_emit [HCall o k] (ep_job (JSettle o) e))
                      | _ => Ok (ep_emit [HCall o k] e) end
  | Some (OReq _ _ _ sink) => if sink then Ok (ep_emit [HCall o k] e) else Panic
  | None => Panic
  end.
(** [DoRequest]: proxy/flux.go 124-127 (a nil [in] panics; an input that was
    never subscribed has no subscription), handler.go 711-713. *)
Definition do_demand (o : N) (n : Z) (e : ep) : res ep :=
  match ep_obj o e with
  | Some (OFlux s) => if sf_in s && negb (sf_first s) then Ok (ep_emit [HDemand o n] e) else Panic
  | Some (OReq _ _ sub _) => if sub then Ok (ep_emit [HDemand o n] e) else Panic
  | _ => Panic
  end.
(** proxy/flux.go 57 *)
Definition settle (o : N) (e : ep) : res ep :=
  match ep_obj o e with
  | Some (OFlux s) => Ok (ep_emit [HSettled o] (ep_set o (OFlux (sf_on_complete s)) e))
  | _ => Ok e
  end.
(** handler/handler.go 137-168 *)
Definition kind_of (ty : N) : option kind :=
  if ty =? FrameTypeRequestResponse then Some RR else if ty =? FrameTypeRequestFNF then Some FNF
  else if ty =? FrameTypeRequestStream then Some RS else if ty =? FrameTypeRequestChannel then Some RC else None.
(** [HandleFrame], handler/handler.go 110-240.  [Follows] is ignored by the code.  The type
    assertion of 171 panics for a remote request-response call. *)
Definition handle_frame (f : frame) (e : ep) : res ep :=
  match f with
  | FSetup s =>
      match ep_table e with
      | Some _ => Ok e
      | None => match table_from_bytes (su_data s) with
                | Ok t => Ok {| ep_ids := ep_ids e; ep_guest := ep_guest e; ep_host := ep_host e; ep_table := Some t;
                                ep_objs := ep_objs e; ep_jobs := ep_jobs e; ep_trace := ep_trace e |}
                | Err _ => Ok (ep_emit [HRejected] e)
                | Panic => Panic
                end
      end
  | FRequest r =>
      match kind_of (rq_type r) with
      | Some k => Ok (ep_job (JHandle k r) e)
      | None => if FrameTypeRequestN <=? rq_type r then
                  match get_stream (rq_stream r) e with
                  | None => Ok (if rq_type r =? FrameTypeRequestN then e else ep_emit [HRejected] e)
                  | Some _ => Ok e
                  end
                else Ok e
      end
  | FRequestN r =>
      match get_stream (rn_stream r) e with
      | None => Ok e
      | Some o => match ep_obj o e with
                  | Some (OMono _) => Panic
                  | _ => Ok (ep_job (JDemand o (Z.of_N (rn_n r))) e)
                  end
      end
  | FCancel c =>
      match get_stream (cn_stream c) e with
      | None => Ok (ep_emit [HRejected] e)
      | Some o => e' <- stream_call o SComplete e ;; Ok (remove_stream (cn_stream c) e')
      end
  | FPayload p =>
      match get_stream (pl_stream p) e with
      | None => Ok (ep_emit [HRejected] e)
      | Some o =>
          e1 <- (if pl_next p then stream_call o (SNext {| py_data := pl_data p; py_meta := pl_metadata p |}) e else Ok e) ;;
          if pl_complete p then e2 <- stream_call o SComplete e1 ;; Ok (remove_stream (pl_stream p) e2) else Ok e1
      end
  | FError x =>
      match get_stream (er_stream x) e with
      | None => Ok (ep_emit [HRejected] e)
      | Some o =>
          e1 <- stream_call o (SError (er_data x)) e ;;
          e2 <- stream_call o SComplete e1 ;; Ok (remove_stream (er_stream x) e2)
      end
  end.
(** handler/handler.go 659-669 *)
Definition error_frame_of (sid : N) (text : bytes) : frame := FError {| er_stream := sid; er_code := 0; er_data := text |}.
(** "Invalid metadata", "not_found"; handler/handler.go 663 *)
Definition invalid_metadata : bytes := [73; 110; 118; 97; 108; 105; 100; 32; 109; 101; 116; 97; 100; 97; 116; 97].
(** handler/handler.go 252 *)
Definition not_found : bytes := [110; 111; 116; 95; 102; 111; 117; 110; 100].

Section Endpoint.
(** The process-wide handler registry, and for each handler whether the flux it
    returns has a subscription ([flux.Error] has none, flux.go 63-65). *)
Variable reg : registry.
Variable subscribable : N -> bool.
(** Which generator of stream ids is used, 61-72. *)
Variable client : bool.

(** The goroutines: handler/handler.go 242-410 and [DoRequest]. *)
Definition handle_request (k : kind) (r : request) (e : ep) : res ep :=
  let sid := rq_stream r in
  if len (rq_metadata r) <? 8 then Ok (ep_emit [HSent (error_frame_of sid invalid_metadata)] e)
  else
    match do_get k reg (unbe (takeN 4 (rq_metadata r))) with
    | None => Ok (ep_emit [HSent (error_frame_of sid not_found)] e)
    | Some h =>
        let o := len (ep_objs e) in
        match k with
        | RR => Ok (ep_emit [HInvoke RR sid h {| py_data := rq_data r; py_meta := dropN 8 (rq_metadata r) |}] e)
        | FNF => Ok (ep_emit [HInvoke FNF sid h {| py_data := rq_data r; py_meta := dropN 8 (rq_metadata r) |}]
                       (register sid o (ep_new (OReq FNF sid false false) e)))
        | _ =>
            if subscribable h then
              Ok (ep_emit [HInvoke k sid h {| py_data := rq_data r; py_meta := rq_metadata r |}; HDemand o (Z.of_N (rq_initial r))]
                    (register sid o (ep_new (OReq k sid true false) e)))
            else Panic
        end
    end.
(** handler/handler.go 143-172 *)
Definition run_job (j : job) : ep -> res ep :=
  match j with JHandle k r => handle_request k r | JDemand o n => do_demand o n | JSettle o => settle o end.

(** What can happen at this end: a call of the Caller interface (caller.go
    66-106), a subscription, request or cancellation of a remote call, an event
    of a channel's input, a subscription of the input of a channel that is being
    served (367-382), a frame coming in, a goroutine running.  handler/handler.go 110-240 *)
Inductive hop :=
| XCall (k : kind) (p : pay) (input : bool)
| XSubscribe (o : N) | XRequest (o : N) (n : Z) | XCancel (o : N) | XIn (o : N) (ev : inev)
| XListen (o : N)
| XFrame (f : frame)
| XJob (i : nat).
(** handler/caller.go 66-106 *)
Definition type_of (k : kind) : N :=
  match k with RR => FrameTypeRequestResponse | FNF => FrameTypeRequestFNF | RS => FrameTypeRequestStream | RC => FrameTypeRequestChannel end.
(** handler/caller.go 66-106; InitialN is 1 or [rx.RequestMax] *)
Definition call_request (k : kind) (sid : N) (p : pay) : request :=
  {| rq_type := type_of k; rq_stream := sid; rq_metadata := py_meta p; rq_data := py_data p; rq_follows := false;
     rq_complete := match k with RR | FNF => true | _ => false end;
     rq_initial := match k with RR | FNF => 1 | _ => 2147483647 end |}.
(** handler/caller.go 66-106 *)
Definition do_call (k : kind) (p : pay) (input : bool) (e : ep) : res ep :=
  match (if client then client_next 2 (ep_ids e) else server_next 2 (ep_ids e)) with
  | None => Panic
  | Some (ids, (sid, _)) =>
      let e' := {| ep_ids := ids; ep_guest := ep_guest e; ep_host := ep_host e; ep_table := ep_table e;
                   ep_objs := ep_objs e; ep_jobs := ep_jobs e; ep_trace := ep_trace e |} in
      let r := call_request k sid p in
      match k with
      | RR => Ok (ep_emit [HCalled (len (ep_objs e)) RR sid p false] (ep_new (OMono r) e'))
      | FNF => Ok (ep_emit [HSent (FRequest r)] e')
      | RS => Ok (ep_emit [HCalled (len (ep_objs e)) RS sid p false] (ep_new (OFlux (sf_new r false)) e'))
      | RC => Ok (ep_emit [HCalled (len (ep_objs e)) RC sid p input] (ep_new (OFlux (sf_new r input)) e'))
      end
  end.
(** handler/handler.go 82-410 *)
Definition hstep (x : hop) (e : ep) : res ep :=
  match x with
  | XCall k p input => do_call k p input e
  | XSubscribe o =>
      match ep_obj o e with
      | Some (OMono r) => Ok (ep_emit [HSubscribed o; HSent (FRequest r)] (register (rq_stream r) o e))     (* mono.go 66-72 *)
      | Some (OFlux s) => Ok (ep_emit [HSubscribed o] (register (rq_stream (sf_req s)) o e))                            (* flux.go 129-134 *)
      | _ => Ok e
      end
  | XRequest o n =>
      match ep_obj o e with
      | Some (OFlux s) => let (s', l) := sf_request n s in Ok (ep_emit (HAsked o n :: map HSent l) (ep_set o (OFlux s') e))
      | Some (OReq RC sid _ true) => Ok (ep_emit [HSent (FRequestN {| rn_stream := sid; rn_n := to_u32 n |})] e)   (* handler.go 370-375 *)
      | _ => Ok e
      end
  | XCancel o =>
      match ep_obj o e with
      | Some (OFlux s) => Ok (ep_emit (HDropped o :: map HSent (sf_cancel s)) e)
      | Some (OReq RC sid _ true) => Ok (ep_emit [HSent (FCancel {| cn_stream := sid |})] e)   (* handler.go 376-380 *)
      | _ => Ok e
      end
  | XIn o ev =>
      match ep_obj o e with
      | Some (OFlux s) => Ok (ep_emit (HFed o ev :: map HSent (sf_input ev s)) e)
      | _ => Ok e
      end
  | XListen o =>
      match ep_obj o e with
      | Some (OReq RC sid sub _) => Ok (ep_set o (OReq RC sid sub true) e)
      | _ => Ok e
      end
  | XFrame f => handle_frame f (ep_emit [HRecv f] e)
  | XJob i =>
      match nth_error (ep_jobs e) i with
      | None => Ok e
      | Some j => run_job j {| ep_ids := ep_ids e; ep_guest := ep_guest e; ep_host := ep_host e; ep_table := ep_table e;
                               ep_objs := ep_objs e; ep_jobs := firstn i (ep_jobs e) ++ skipn (S i) (ep_jobs e); ep_trace := ep_trace e |}
      end
  end.
(** handler/handler.go 82-410 *)
Fixpoint hrun (l : list hop) (e : ep) : res ep :=
  match l with [] => Ok e | x :: l' => e' <- hstep x e ;; hrun l' e' end.
End Endpoint.

(** ** The subscriptions made by the responders: what they send for what the
    handler's mono (260-276) or flux (321-343, 384-406) delivers. *)
(** handler/handler.go 260-276 *)
Definition answer_frame (sid : N) (r : pay + bytes) : frame :=
  match r with
  | inl p => FPayload {| pl_stream := sid; pl_metadata := py_meta p; pl_data := py_data p; pl_follows := false; pl_complete := true; pl_next := true |}
  | inr e => error_frame_of sid e
  end.
(** handler/handler.go 260-276 *)
Definition answer {C} (sid : N) : MonoModel.handlers pay bytes frame C :=
  MonoModel.Handlers (Some (fun _ p => [MonoModel.AObs (answer_frame sid (inl p))])) (Some (fun _ e => [MonoModel.AObs (answer_frame sid (inr e))])) None.
(** handler/handler.go 321-343, 384-406; the same frames at transport/wasmrs/host/instance.go 488-515, 557-587 and guest/guest.go 339-365, 398-428 *)
Definition emit {C} (sid : N) : FluxModel.fhandlers pay bytes frame C :=
  FluxModel.FHandlers (Some (fun _ p => [FluxModel.FObs (in_frame sid (InNext p))])) (Some (fun _ => [FluxModel.FObs (in_frame sid InComplete)]))
    (Some (fun _ e => [FluxModel.FObs (in_frame sid (InError e))])) None None true.
