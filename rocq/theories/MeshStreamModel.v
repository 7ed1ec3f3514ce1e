(** Streams and channels between the modules of a mesh: the handlers that
    /repo/transport/wasmrs/mesh/mesh.go 237-261 sets for the imports of an instance
    are calls of the host on another instance (279-293), and the host writes what
    their flux gives on the stream of the caller.  Every instance with its guest is
    a pair of WasmJointModel.v. *)
From Verif Require Import Base FramesModel InvokeModel LookupModel HandlerModel JointModel JointFacts WasmEndModel WasmJointModel MeshModel MeshProps MeshCallModel.
From Verif Require FluxModel.

(** [destination.RequestStream], [destination.RequestChannel],
    transport/wasmrs/mesh/mesh.go 279-293.  In the execution [ja] of instance [a] the
    host invoked the handler of an import for the request on stream [sid]; that was
    the call [o] of the host on instance [b], on stream [sid'] of its execution [jb],
    with the index of the destination written into the metadata.  The flux given
    to a channel is followed in MeshChannelProps.v. *)
Definition relayed_call (m : mesh) (k : kind) (a : nat) (ja : joint) (sid : N) (b : nat) (jb : joint) (o sid' : N) : Prop :=
  exists i q d meta input,
    In (HInvoke k sid i q) (trace_of false ja) /\ handler m a k i = Some d /\ forward d (Some (py_meta q)) = Ok (b, Some meta) /\
    In (HCalled o k sid' {| py_data := py_data q; py_meta := meta |} input) (trace_of false jb).
(** The callbacks with which a host subscribes the flux of a handler: there is one
    for values, for the end, for errors, and no request is made on subscribing.
    transport/wasmrs/host/instance.go 488-512, 561-585 *)
Definition relay_handlers {V E O C} : FluxModel.fhandlers V E O C :=
  FluxModel.FHandlers (Some (fun _ _ => [])) (Some (fun _ => [])) (Some (fun _ _ => [])) None None true.
(** The frame that each of them sends.  transport/wasmrs/host/instance.go 489-510, 562-583 *)
Definition relay_frame (sid : N) (x : FluxModel.fobs pay bytes) : list frame :=
  match x with
  | FluxModel.ONext p => [FPayload {| pl_stream := sid; pl_metadata := py_meta p; pl_data := py_data p; pl_follows := false; pl_complete := false; pl_next := true |}]
  | FluxModel.OComplete => [FPayload {| pl_stream := sid; pl_metadata := []; pl_data := []; pl_follows := false; pl_complete := true; pl_next := false |}]
  | FluxModel.OError e => [FError {| er_stream := sid; er_code := 0; er_data := e |}]
  | FluxModel.OFinally _ => []
  end.
