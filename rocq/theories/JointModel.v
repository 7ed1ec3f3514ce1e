(** Two ends of a connection (HandlerModel.v) joined by TCP (TcpModel.v): the
    way /repo/transport/rsocket/transport.go 60-71, 99-120, 157-232 connects handler.HandleFrame
    to the connection in both directions.

    One direction is the frames written so far, in the order in which they were
    written (senders are taken to write one frame at a time, see C18), and the
    frames handed over so far, which have to be what the reader makes of some
    pieces of a prefix of the bytes.  The Setup frame that opens a connection is
    left out: the request handlers do not use it. *)
From Verif Require Import Base FramesModel WasmModel InvokeModel TcpModel HandlerModel.

(** One end: what happened, its state, and the frames it wrote.  transport/rsocket/transport.go 60-71 *)
Record side := { sd_ops : list hop; sd_ep : ep; sd_out : list frame }.
(** transport/rsocket/transport.go 60-71 *)
Record joint := { jt_client : side; jt_server : side }.
(** transport/rsocket/transport.go 60-71 *)
Definition at_side (c : bool) (j : joint) : side := if c then jt_client j else jt_server j.
(** transport/rsocket/transport.go 60-71 *)
Definition put_side (c : bool) (s : side) (j : joint) : joint :=
  if c then {| jt_client := s; jt_server := jt_server j |} else {| jt_client := jt_client j; jt_server := s |}.
(** transport/rsocket/transport.go 99-120 *)
Definition sent_by (t : list hevent) : list frame := flat_map (fun x => match x with HSent f => [f] | _ => [] end) t.
(** transport/rsocket/transport.go 157-175 *)
Definition received (t : list hevent) : list frame := flat_map (fun x => match x with HRecv f => [f] | _ => [] end) t.
(** transport/rsocket/transport.go 60-71 *)
Definition side_init : side := {| sd_ops := []; sd_ep := ep_init; sd_out := [] |}.
(** transport/rsocket/transport.go 60-71 *)
Definition joint_init : joint := {| jt_client := side_init; jt_server := side_init |}.

(** [gs] is what the connection has handed over after [fs] were written
    (transport/rsocket/tcp_conn.go 39-124): the bytes may have arrived in part only, in any pieces. *)
Definition reads_from (fs gs : list frame) : Prop :=
  exists writes chunks rest fuel, Forall2 (fun f w => conn_write f = Ok w) fs writes /\
    concat chunks ++ rest = concat (map (@concat N) writes) /\
    read_frames_all fuel [] (map Chunk chunks) = Some (gs, ConnEof).
(** An operation happened at one end; the frames it sent are written.  transport/rsocket/transport.go 99-120 *)
Definition advance (x : hop) (e' : ep) (s : side) : side :=
  {| sd_ops := sd_ops s ++ [x]; sd_ep := e';
     sd_out := sd_out s ++ sent_by (skipn (List.length (ep_trace (sd_ep s))) (ep_trace e')) |}.
(** transport/rsocket/transport.go 99-120 *)
Definition write (f : frame) (s : side) : side := {| sd_ops := sd_ops s; sd_ep := sd_ep s; sd_out := sd_out s ++ [f] |}.

Section Joint.
(** The exports of each end, their fluxes (see HandlerModel.v), and what their
    request-response handlers may answer to a payload. *)
Variable exported : bool -> list reg_call.
Variable subscribable : bool -> N -> bool.
Variable behaves : bool -> N -> pay -> pay + bytes -> Prop.

(** A step: an operation at one end; a frame is handed over; the mono of a
    request-response handler has an outcome (see C61); the flux of a stream or
    channel handler makes its responder send a frame (see C62).  transport/rsocket/transport.go 99-120, 157-232 *)
Inductive jstep : joint -> joint -> Prop :=
| JOp c x j e' : (forall f, x <> XFrame f) ->
    hstep (reg_run (exported c)) (subscribable c) c x (sd_ep (at_side c j)) = Ok e' ->
    jstep j (put_side c (advance x e' (at_side c j)) j)
| JFrame c g j e' : reads_from (sd_out (at_side (negb c) j)) (received (ep_trace (sd_ep (at_side c j))) ++ [g]) ->
    hstep (reg_run (exported c)) (subscribable c) c (XFrame g) (sd_ep (at_side c j)) = Ok e' ->
    jstep j (put_side c (advance (XFrame g) e' (at_side c j)) j)
| JAnswer c sid h p r j : In (HInvoke RR sid h p) (ep_trace (sd_ep (at_side c j))) -> behaves c h p r ->
    jstep j (put_side c (write (answer_frame sid r) (at_side c j)) j)
| JEmit c k sid h p f j : In (HInvoke k sid h p) (ep_trace (sd_ep (at_side c j))) -> k = RS \/ k = RC ->
    frame_stream f = sid -> match f with FPayload _ | FError _ => True | _ => False end ->
    jstep j (put_side c (write f (at_side c j)) j).
(** transport/rsocket/transport.go 99-120, 157-232 *)
Inductive jruns : joint -> Prop :=
| jr_init : jruns joint_init
| jr_step j j' : jruns j -> jstep j j' -> jruns j'.
End Joint.
