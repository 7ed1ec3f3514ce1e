(** Model of the typed clients and wrappers of a stream or channel operation, for
    any type of values: the shape shared by
    - /repo/transport/wasmrs/example/counter.go 26-40 (client) and 90-101 (wrapper),
    - /repo/transport/wasmrs/example/uppercase.go 25-31 and 40-45,
    - /repo/transport/wasmrs/example/greeting.go 43-47 (client of a channel).
    The arguments are those of StubModel.v; here is what [flux.Map] does with the
    values. *)
From Verif Require Import Base FramesModel InvokeModel TransformModel TableModel HandlerModel StubModel.
From Verif Require FluxModel.

Section Typed.
Context {A : Type}.
Variable tr : transform A.
(** The text of a Go error. *)
Variable text : string -> bytes.
(** [transform.String.Encode] as given to [flux.Map]; the metadata is that of
    [payload.New(data)].  A panic of the encoder ends the process; here an error
    stands for it, and the theorems are about values that can be encoded.
    transport/wasmrs/example/counter.go 99, uppercase.go 29, 43; transform/transform.go 27-34 *)
Definition typed_out (a : A) : pay + bytes :=
  match t_encode tr a with Ok d => inl {| py_data := d; py_meta := [] |} | Err e => inr (text e) | Panic => inr [] end.
(** [transform.String.Decode]; transport/wasmrs/example/counter.go 39, uppercase.go 30, 42; transform/transform.go 36-44.
    As above for panics. *)
Definition typed_in (p : pay) : A + bytes :=
  match t_decode tr (py_data p) with Ok a => inl a | Err e => inr (text e) | Panic => inr [] end.
(** The subscription the responder makes to the flux of a wrapper: [Subscribe] of
    [flux.Map(r, Encode)] with the callbacks of the responder, so a value
    that cannot be encoded goes to its OnError (and to its Finally, which
    is nil).  rx/flux/flux.go 232-256, handler/handler.go 321-343, 384-406 *)
Definition typed_emit {C} (sid : N) : FluxModel.fhandlers A bytes frame C :=
  FluxModel.FHandlers
    (Some (fun _ a => [FluxModel.FObs (in_frame sid (match typed_out a with inl p => InNext p | inr e => InError e end))]))
    (Some (fun _ => [FluxModel.FObs (in_frame sid InComplete)]))
    (Some (fun _ e => [FluxModel.FObs (in_frame sid (InError e))])) None None true.
End Typed.
(** What the proxy of a channel sends of its input: the events that its
    subscription to [flux.Map(in, Encode)] is shown; proxy/flux.go 86-108 *)
Definition input_of (x : FluxModel.fobs pay bytes) : list inev :=
  match x with FluxModel.ONext p => [InNext p] | FluxModel.OComplete => [InComplete] | FluxModel.OError e => [InError e] | FluxModel.OFinally _ => [] end.
(** The operation of the counter: "host", "counter"; transport/wasmrs/example/counter.go 22, 87, uppercase.go 21, 37 *)
Definition count_to : info := ([104; 111; 115; 116], [99; 111; 117; 110; 116; 101; 114]).
(** The payload of [Uppercase]: no data; transport/wasmrs/example/uppercase.go 26-28 *)
Definition channel_pay (op : N) : pay := {| py_data := []; py_meta := stub_meta op |}.
