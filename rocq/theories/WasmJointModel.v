(** A host and a guest (WasmEndModel.v) joined by the shared memory
    (WasmModel.v): /repo/transport/wasmrs/host/instance.go 151-188, 200-219 and
    /repo/transport/wasmrs/guest/guest.go 45-86, 498-533 connect recvOne and
    GuestSend to each other.

    One direction is the frames sent so far, in the order in which they were
    passed to the queue or written, and the frames handed over so far; the next
    one is encoded into the buffer of that direction, taken out of it and parsed
    (C84 is about the queues: order and the ways in which they block).  The state
    is that of JointModel.v; the client is the guest, whose ids are odd. *)
From Verif Require Import Base FramesModel WasmModel InvokeModel LookupModel HandlerModel JointModel WasmEndModel.

(** [g] is what the receiving end makes of [f], for a buffer of [room] bytes that
    held anything before: the guest's (host/instance.go 172-188,
    guest/guest.go 70-86) or the host's, which is part of the guest's memory
    (guest/guest.go 526-533, host/instance.go 200-213). *)
Definition crosses (room : N) (guest : bool) (f g : frame) : Prop :=
  exists pre buf post buf' n body, len buf = room /\ write_frame buf f = Ok (buf', n) /\
    (if guest then guest_receive buf' n else host_receive (pre ++ buf' ++ post) (len pre) n) = ([body], LoopDone) /\
    frame_of_bytes body = Ok g.

Section WasmJoint.
(** What the guest exports and the host's handlers for its imports (fixed here),
    their fluxes (see HandlerModel.v), what request-response handlers may answer,
    and the sizes of the buffers (16 KiB, host/instance.go 85, 89). *)
Variable exported : list reg_call.
Variable imported : kind -> N -> option N.
Variable subscribable : bool -> N -> bool.
Variable behaves : bool -> N -> pay -> pay + bytes -> Prop.
Variable room : bool -> N.

(** transport/wasmrs/host/instance.go 221-589, transport/wasmrs/guest/guest.go 70-429 *)
Definition side_step (guest : bool) (x : hop) (e : ep) : res ep :=
  if guest then guest_step (reg_run exported) (subscribable true) x e else host_step (subscribable false) x imported e.
(** A step, as in JointModel.v.  The outcome of a request-response handler is
    sent at host/instance.go 420-437, guest/guest.go 281-295, what a flux gives at
    host/instance.go 488-515, 557-587, guest/guest.go 339-365, 398-428. *)
Inductive wstep : joint -> joint -> Prop :=
| WOp c x j e' : (forall f, x <> XFrame f) ->
    side_step c x (sd_ep (at_side c j)) = Ok e' ->
    wstep j (put_side c (advance x e' (at_side c j)) j)
| WFrame c f g j e' : nth_error (sd_out (at_side (negb c) j)) (List.length (received (ep_trace (sd_ep (at_side c j))))) = Some f ->
    crosses (room c) c f g ->
    side_step c (XFrame g) (sd_ep (at_side c j)) = Ok e' ->
    wstep j (put_side c (advance (XFrame g) e' (at_side c j)) j)
| WAnswer c sid h p r j : In (HInvoke RR sid h p) (ep_trace (sd_ep (at_side c j))) -> behaves c h p r ->
    wstep j (put_side c (write (answer_frame sid r) (at_side c j)) j)
| WEmit c k sid h p f j : In (HInvoke k sid h p) (ep_trace (sd_ep (at_side c j))) -> k = RS \/ k = RC ->
    frame_stream f = sid -> match f with FPayload _ | FError _ => True | _ => False end ->
    wstep j (put_side c (write f (at_side c j)) j).
(** transport/wasmrs/host/instance.go 151-219, transport/wasmrs/guest/guest.go 70-86, 498-533 *)
Inductive wruns : joint -> Prop :=
| wr_init : wruns joint_init
| wr_step j j' : wruns j -> wstep j j' -> wruns j'.
End WasmJoint.
