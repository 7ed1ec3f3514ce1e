(** Models of /repo/transport/wasmrs/host/instance.go 127-149, 221-589, 647-713
    with host/caller.go 31-76, and of /repo/transport/wasmrs/guest/guest.go
    70-479, 526-575 with guest/caller.go 38-84: the two ends of the connection
    between a host and a WebAssembly module, given the frames that arrive (how
    frames cross the shared memory is in WasmModel.v).

    The calls an end makes and the stream tables are those of HandlerModel.v:
    host/caller.go 31-76 and guest/caller.go 38-84 have the text of
    handler/caller.go 66-111.  A fragment of a request is kept in a map nobody
    reads (host 659-671, guest 443-455; the readers are commented out), so the map
    is not part of the state.  The counter of active requests is in HostModel.v.
    Contexts are not modelled. *)
From Verif Require Import Base FramesModel InvokeModel LookupModel HandlerModel.

(** ** The host *)
Section Host.
(** Does the flux a handler returns have a subscription, as in HandlerModel.v. *)
Variable subscribable : N -> bool.

(** recvOne, transport/wasmrs/host/instance.go 221-395.  Setup frames are ignored; a request is passed to a
    goroutine unless it is a fragment; for other frames the text is that of
    HandleFrame (226-237, 309-394), where an unknown stream is printed. *)
Definition host_frame (f : frame) (e : ep) : res ep :=
  match f with
  | FSetup _ => Ok e
  | FRequest r =>
      match kind_of (rq_type r) with
      | Some k => if rq_follows r then Ok e else Ok (ep_job (JHandle k r) e)
      | None => handle_frame f e
      end
  | _ => handle_frame f e
  end.
(** transport/wasmrs/host/instance.go 397-589.  [imported] is what 598-645 find; the stream of a RequestStream is
    made (486) and not registered, that of a channel is (541-542). *)
Definition host_request (imported : kind -> N -> option N) (k : kind) (r : request) (e : ep) : res ep :=
  let sid := rq_stream r in
  if len (rq_metadata r) <? 8 then Ok (ep_emit [HSent (error_frame_of sid invalid_metadata)] e)
  else
    match imported k (unbe (takeN 4 (rq_metadata r))) with
    | None => Ok (ep_emit [HSent (error_frame_of sid not_found)] e)
    | Some h =>
        let p := {| py_data := rq_data r; py_meta := rq_metadata r |} in
        let o := len (ep_objs e) in
        match k with
        | RR | FNF => Ok (ep_emit [HInvoke k sid h p] e)
        | RS => if subscribable h then
                  Ok (ep_emit [HInvoke k sid h p; HDemand o (Z.of_N (rq_initial r))] (ep_new (OReq k sid true false) e))
                else Panic
        | RC => if subscribable h then
                  Ok (ep_emit [HInvoke k sid h p; HDemand o (Z.of_N (rq_initial r))] (register sid o (ep_new (OReq k sid true false) e)))
                else Panic
        end
    end.
(** One step, with what is imported at that moment (the tables of 52-55 may be
    changed by others at any time, 591-637).  The host's own ids are even, 33.  transport/wasmrs/host/instance.go 221-589 *)
Definition host_step (x : hop) (imported : kind -> N -> option N) (e : ep) : res ep :=
  match x with
  | XFrame f => host_frame f (ep_emit [HRecv f] e)
  | XJob i =>
      match nth_error (ep_jobs e) i with
      | None => Ok e
      | Some j =>
          let e1 := {| ep_ids := ep_ids e; ep_guest := ep_guest e; ep_host := ep_host e; ep_table := ep_table e; ep_objs := ep_objs e;
                       ep_jobs := firstn i (ep_jobs e) ++ skipn (S i) (ep_jobs e); ep_trace := ep_trace e |} in
          match j with JHandle k r => host_request imported k r e1 | JDemand o n => do_demand o n e1 | JSettle o => settle o e1 end
      end
  | _ => hstep registry_init subscribable false x e
  end.
(** transport/wasmrs/host/instance.go 221-589 *)
Fixpoint host_run (l : list (hop * (kind -> N -> option N))) (e : ep) : res ep :=
  match l with [] => Ok e | (x, imported) :: l' => e' <- host_step x imported e ;; host_run l' e' end.
End Host.

(** ** The guest *)
Section Guest.
Variable reg : registry.
Variable subscribable : N -> bool.
(** transport/wasmrs/guest/guest.go 261-429: called in place, no goroutine. *)
Definition guest_request (k : kind) (r : request) (e : ep) : res ep :=
  let sid := rq_stream r in
  if len (rq_metadata r) <? 8 then Ok (ep_emit [HSent (error_frame_of sid invalid_metadata)] e)
  else
    match do_get k reg (unbe (takeN 4 (rq_metadata r))) with
    | None => Ok (ep_emit [HSent (error_frame_of sid not_found)] e)
    | Some h =>
        let cut := {| py_data := rq_data r; py_meta := dropN 8 (rq_metadata r) |} in
        let whole := {| py_data := rq_data r; py_meta := rq_metadata r |} in
        let o := len (ep_objs e) in
        match k with
        | RR => Ok (ep_emit [HInvoke k sid h cut] e)
        | FNF => Ok (ep_emit [HInvoke k sid h cut] (register sid o (ep_new (OReq k sid false false) e)))
        | RS | RC => if subscribable h then
                       Ok (ep_emit [HInvoke k sid h whole; HDemand o (Z.of_N (rq_initial r))] (register sid o (ep_new (OReq k sid true false) e)))
                     else Panic
        end
    end.
(** transport/wasmrs/guest/guest.go 88-257, one frame. *)
Definition guest_frame (f : frame) (e : ep) : res ep :=
  match f with
  | FSetup _ => Ok e
  | FRequest r =>
      match kind_of (rq_type r) with
      | Some k => if rq_follows r then Ok e else guest_request k r e
      | None => handle_frame f e
      end
  | FRequestN r =>
      match get_stream (rn_stream r) e with
      | None => Ok e
      | Some o => match ep_obj o e with
                  | Some (OMono _) => Panic
                  | _ => do_demand o (Z.of_N (rn_n r)) e
                  end
      end
  | _ => handle_frame f e
  end.
(** The guest's own ids are odd (caller.go 18-20).  The only work left over by a
    frame is the end of a remote flux's OnComplete ([JSettle]), which the
    callbacks of that completion precede.  transport/wasmrs/guest/guest.go 70-429 *)
Definition guest_step (x : hop) (e : ep) : res ep :=
  match x with
  | XFrame f => guest_frame f (ep_emit [HRecv f] e)
  | XJob i =>
      match nth_error (ep_jobs e) i with
      | Some (JSettle o) =>
          settle o {| ep_ids := ep_ids e; ep_guest := ep_guest e; ep_host := ep_host e; ep_table := ep_table e; ep_objs := ep_objs e;
                      ep_jobs := firstn i (ep_jobs e) ++ skipn (S i) (ep_jobs e); ep_trace := ep_trace e |}
      | _ => Ok e
      end
  | _ => hstep reg subscribable true x e
  end.
(** transport/wasmrs/guest/guest.go 70-429 *)
Fixpoint guest_run (l : list hop) (e : ep) : res ep :=
  match l with [] => Ok e | x :: l' => e' <- guest_step x e ;; guest_run l' e' end.
End Guest.
