(** Model of /repo/transport/rsocket/tcp_transport.go 16-134: the life of a TCP
    server, its listener and the transports of its connections, with
    transport.go 132-138 ([Transport.Close], at most once per transport) and
    177-236 ([Start] closes its transport when it returns, [WaitUntilReady]).

    One step per critical section of [t.mu] and per call of the listener; steps
    of the goroutines come in any order.  Simplifications: [Listen] is called
    at most once; a closed listener accepts nothing any more; the sessions
    themselves are those of C19, here they only become ready and end, at any time. *)
From Verif Require Import Base.

(** Where [Listen] (transport/rsocket/tcp_transport.go 54-112) is: not called; before [Accept] (80-82); before
    [putTransport] (99); before the [Close] of 108; before the deferred [Close]
    (62-64); returned. *)
Inductive lpc := LIdle | LLoop | LPut (id : nat) | LRefuse | LExit | LReturned.
(** transport/rsocket/tcp_transport.go 16-24 *)
Record server := {
  sv_done : bool;               (* [done] closed *)
  sv_map : option (list nat);   (* [m]; [None]: nil *)
  sv_listener : bool;           (* [l] is set *)
  sv_lclosed : bool;            (* the listener has been closed *)
  sv_pc : lpc; sv_daemon : bool; sv_ctx : bool;
  sv_next : nat;                (* connections accepted *)
  sv_started : list nat;        (* [go tp.Start] (100) *)
  sv_refused : list nat;        (* connections [putTransport] did not take *)
  sv_ready : list nat;          (* the acceptor has been called (101-106) *)
  sv_ended : list nat;          (* [Start] has returned *)
  sv_closed : list nat;         (* transports whose connection was closed, in order *)
  sv_forgotten : list nat }.    (* [onClose] called by the acceptor's user (103-105) *)
(** transport/rsocket/tcp_transport.go 136-145 *)
Definition server_init : server :=
  {| sv_done := false; sv_map := Some []; sv_listener := false; sv_lclosed := false; sv_pc := LIdle; sv_daemon := false; sv_ctx := false;
     sv_next := 0; sv_started := []; sv_refused := []; sv_ready := []; sv_ended := []; sv_closed := []; sv_forgotten := [] |}.
(** [Accept] of the listener: a connection, EOF or a closed listener, another
    error (transport/rsocket/tcp_transport.go 82-90). *)
Inductive accepted := AConn | AEnd | AErr.
(** transport/rsocket/tcp_transport.go 32-118 *)
Inductive sop :=
| SClose                   (* the user calls Close *)
| SListen (ok : bool)      (* the user calls Listen; [lf] succeeds or not (55-60) *)
| SAccept (r : accepted)
| SPut | SRefuse | SLeave  (* Listen goes on *)
| SCtx                     (* the context is cancelled *)
| SDaemon                  (* the goroutine of 69-77 *)
| SReady (id : nat) | SEnd (id : nat) | SForget (id : nat).

(** transport/rsocket/tcp_transport.go 123-131 *)
Definition memb (x : nat) (l : list nat) : bool := existsb (Nat.eqb x) l.
(** transport/rsocket/transport.go 132-138, [once] *)
Definition close_tp (closed : list nat) (id : nat) : list nat := if memb id closed then closed else closed ++ [id].
(** transport/rsocket/tcp_transport.go 32-52 *)
Definition do_close (s : server) : server :=
  if sv_done s then s
  else if sv_listener s then
    {| sv_done := true; sv_map := None; sv_listener := true; sv_lclosed := true; sv_pc := sv_pc s; sv_daemon := sv_daemon s; sv_ctx := sv_ctx s;
       sv_next := sv_next s; sv_started := sv_started s; sv_refused := sv_refused s; sv_ready := sv_ready s; sv_ended := sv_ended s;
       sv_closed := fold_left close_tp (match sv_map s with Some m => m | None => [] end) (sv_closed s); sv_forgotten := sv_forgotten s |}
  else
    {| sv_done := true; sv_map := sv_map s; sv_listener := false; sv_lclosed := sv_lclosed s; sv_pc := sv_pc s; sv_daemon := sv_daemon s; sv_ctx := sv_ctx s;
       sv_next := sv_next s; sv_started := sv_started s; sv_refused := sv_refused s; sv_ready := sv_ready s; sv_ended := sv_ended s;
       sv_closed := sv_closed s; sv_forgotten := sv_forgotten s |}.
(** transport/rsocket/tcp_transport.go 54-112 *)
Definition set_pc (s : server) (pc : lpc) : server :=
  {| sv_done := sv_done s; sv_map := sv_map s; sv_listener := sv_listener s; sv_lclosed := sv_lclosed s; sv_pc := pc; sv_daemon := sv_daemon s; sv_ctx := sv_ctx s;
     sv_next := sv_next s; sv_started := sv_started s; sv_refused := sv_refused s; sv_ready := sv_ready s; sv_ended := sv_ended s; sv_closed := sv_closed s; sv_forgotten := sv_forgotten s |}.
(** 120-134 with transport/rsocket/tcp_transport.go 99-109 *)
Definition do_put (s : server) (id : nat) : server :=
  match (if sv_done s then None else sv_map s) with
  | Some m =>
      {| sv_done := sv_done s; sv_map := Some (m ++ [id]); sv_listener := sv_listener s; sv_lclosed := sv_lclosed s; sv_pc := LLoop; sv_daemon := sv_daemon s; sv_ctx := sv_ctx s;
         sv_next := sv_next s; sv_started := sv_started s ++ [id]; sv_refused := sv_refused s; sv_ready := sv_ready s; sv_ended := sv_ended s; sv_closed := sv_closed s; sv_forgotten := sv_forgotten s |}
  | None =>
      {| sv_done := sv_done s; sv_map := sv_map s; sv_listener := sv_listener s; sv_lclosed := sv_lclosed s; sv_pc := LRefuse; sv_daemon := sv_daemon s; sv_ctx := sv_ctx s;
         sv_next := sv_next s; sv_started := sv_started s; sv_refused := sv_refused s ++ [id]; sv_ready := sv_ready s; sv_ended := sv_ended s; sv_closed := sv_closed s; sv_forgotten := sv_forgotten s |}
  end.
(** transport/rsocket/tcp_transport.go 32-134 *)
Definition sstep (s : server) (o : sop) : server :=
  match o with
  | SClose => do_close s
  | SListen ok =>
      match sv_pc s with
      | LIdle =>
          if ok then
            {| sv_done := sv_done s; sv_map := sv_map s; sv_listener := true; sv_lclosed := sv_lclosed s; sv_pc := LLoop; sv_daemon := true; sv_ctx := sv_ctx s;
               sv_next := sv_next s; sv_started := sv_started s; sv_refused := sv_refused s; sv_ready := sv_ready s; sv_ended := sv_ended s; sv_closed := sv_closed s; sv_forgotten := sv_forgotten s |}
          else set_pc s LReturned
      | _ => s
      end
  | SAccept r =>
      match sv_pc s with
      | LLoop =>
          match r with
          | AConn =>
              if sv_lclosed s then s
              else {| sv_done := sv_done s; sv_map := sv_map s; sv_listener := sv_listener s; sv_lclosed := sv_lclosed s; sv_pc := LPut (sv_next s); sv_daemon := sv_daemon s; sv_ctx := sv_ctx s;
                      sv_next := S (sv_next s); sv_started := sv_started s; sv_refused := sv_refused s; sv_ready := sv_ready s; sv_ended := sv_ended s; sv_closed := sv_closed s; sv_forgotten := sv_forgotten s |}
          | AEnd => set_pc s LExit
          | AErr => s
          end
      | _ => s
      end
  | SPut => match sv_pc s with LPut id => do_put s id | _ => s end
  | SRefuse => match sv_pc s with LRefuse => do_close (set_pc s LLoop) | _ => s end
  | SLeave => match sv_pc s with LExit => do_close (set_pc s LReturned) | _ => s end
  | SCtx =>
      {| sv_done := sv_done s; sv_map := sv_map s; sv_listener := sv_listener s; sv_lclosed := sv_lclosed s; sv_pc := sv_pc s; sv_daemon := sv_daemon s; sv_ctx := true;
         sv_next := sv_next s; sv_started := sv_started s; sv_refused := sv_refused s; sv_ready := sv_ready s; sv_ended := sv_ended s; sv_closed := sv_closed s; sv_forgotten := sv_forgotten s |}
  | SDaemon =>
      if sv_daemon s && (sv_ctx s || sv_done s) then
        let s' := if sv_ctx s then do_close s else s in
        {| sv_done := sv_done s'; sv_map := sv_map s'; sv_listener := sv_listener s'; sv_lclosed := sv_lclosed s'; sv_pc := sv_pc s'; sv_daemon := false; sv_ctx := sv_ctx s';
           sv_next := sv_next s'; sv_started := sv_started s'; sv_refused := sv_refused s'; sv_ready := sv_ready s'; sv_ended := sv_ended s'; sv_closed := sv_closed s'; sv_forgotten := sv_forgotten s' |}
      else s
  | SReady id =>
      if memb id (sv_started s) && negb (memb id (sv_ready s)) && negb (memb id (sv_ended s)) then
        {| sv_done := sv_done s; sv_map := sv_map s; sv_listener := sv_listener s; sv_lclosed := sv_lclosed s; sv_pc := sv_pc s; sv_daemon := sv_daemon s; sv_ctx := sv_ctx s;
           sv_next := sv_next s; sv_started := sv_started s; sv_refused := sv_refused s; sv_ready := sv_ready s ++ [id]; sv_ended := sv_ended s; sv_closed := sv_closed s; sv_forgotten := sv_forgotten s |}
      else s
  | SEnd id =>
      if memb id (sv_started s) && negb (memb id (sv_ended s)) then
        {| sv_done := sv_done s; sv_map := sv_map s; sv_listener := sv_listener s; sv_lclosed := sv_lclosed s; sv_pc := sv_pc s; sv_daemon := sv_daemon s; sv_ctx := sv_ctx s;
           sv_next := sv_next s; sv_started := sv_started s; sv_refused := sv_refused s; sv_ready := sv_ready s; sv_ended := sv_ended s ++ [id]; sv_closed := close_tp (sv_closed s) id; sv_forgotten := sv_forgotten s |}
      else s
  | SForget id =>                                                     (* 114-118; only an acceptor that was called has [onClose] *)
      if memb id (sv_ready s) then
        {| sv_done := sv_done s; sv_map := option_map (filter (fun x => negb (Nat.eqb x id))) (sv_map s); sv_listener := sv_listener s; sv_lclosed := sv_lclosed s; sv_pc := sv_pc s; sv_daemon := sv_daemon s; sv_ctx := sv_ctx s;
           sv_next := sv_next s; sv_started := sv_started s; sv_refused := sv_refused s; sv_ready := sv_ready s; sv_ended := sv_ended s; sv_closed := sv_closed s; sv_forgotten := sv_forgotten s ++ [id] |}
      else s
  end.
(** transport/rsocket/tcp_transport.go 32-134 *)
Definition srun (ops : list sop) : server := fold_left sstep ops server_init.
