(** Model of the two goroutines and the two bounded channels of
    /repo/transport/wasmrs/host/instance.go: [SendFrame] 151-165, [sendLoop]
    172-189, [hostSend] 200-213 (called by the guest inside [sendFn.Call], 187) and
    [recvLoop] 215-219. *)
From Verif Require Import Base.

Section Chan.
(** Frames to the guest, frames to the host, the states of the guest and of the
    host's callbacks. *)
Context {F G SG SH : Type}.
(** One call of the guest (187): the frames it passes to [hostSend].  One frame
    received by the host (217, [recvOne]): the frames which the callbacks it runs
    pass to [SendFrame] before they return. *)
Context (guest : SG -> F -> SG * list G) (host : SH -> G -> SH * list F).
(** Capacities, 100 and 100 in 79-80; both positive.  A frame counts as in the
    channel until the loop takes it. *)
Context (a b : nat).

(** [ch_call]: what the running guest call still has to pass to [hostSend];
    [ch_cb]: what the running callback still has to send.  Empty lists: the loop is
    ready for the next frame (the return from a call with nothing left to pass is
    not a step of its own).  The last fields record what was sent, passed and
    handled.  transport/wasmrs/host/instance.go 52-81 *)
Record chans := {
  ch_guest : SG; ch_host : SH;
  ch_send : list F; ch_recv : list G; ch_call : list G; ch_cb : list F;
  ch_sent : list F; ch_taken : list F; ch_passed : list G; ch_handled : list G }.
(** transport/wasmrs/host/instance.go 76-81 *)
Definition chans_init (g : SG) (h : SH) : chans :=
  {| ch_guest := g; ch_host := h; ch_send := []; ch_recv := []; ch_call := []; ch_cb := []; ch_sent := []; ch_taken := []; ch_passed := []; ch_handled := [] |}.

(** The steps of the two loops; a send on a full channel blocks.  transport/wasmrs/host/instance.go 151-219 *)
Inductive loop_step (c : chans) : chans -> Prop :=
| LTake f r : ch_call c = [] -> ch_send c = f :: r ->                                       (* 176, 187 *)
    loop_step c {| ch_guest := fst (guest (ch_guest c) f); ch_host := ch_host c; ch_send := r; ch_recv := ch_recv c;
                   ch_call := snd (guest (ch_guest c) f); ch_cb := ch_cb c;
                   ch_sent := ch_sent c; ch_taken := ch_taken c ++ [f]; ch_passed := ch_passed c; ch_handled := ch_handled c |}
| LPass v r : ch_call c = v :: r -> (List.length (ch_recv c) < b)%nat ->                     (* 210 *)
    loop_step c {| ch_guest := ch_guest c; ch_host := ch_host c; ch_send := ch_send c; ch_recv := ch_recv c ++ [v];
                   ch_call := r; ch_cb := ch_cb c;
                   ch_sent := ch_sent c; ch_taken := ch_taken c; ch_passed := ch_passed c ++ [v]; ch_handled := ch_handled c |}
| LRecv v r : ch_cb c = [] -> ch_recv c = v :: r ->                                         (* 216-217 *)
    loop_step c {| ch_guest := ch_guest c; ch_host := fst (host (ch_host c) v); ch_send := ch_send c; ch_recv := r;
                   ch_call := ch_call c; ch_cb := snd (host (ch_host c) v);
                   ch_sent := ch_sent c; ch_taken := ch_taken c; ch_passed := ch_passed c; ch_handled := ch_handled c ++ [v] |}
| LSend f r : ch_cb c = f :: r -> (List.length (ch_send c) < a)%nat ->                       (* 163 *)
    loop_step c {| ch_guest := ch_guest c; ch_host := ch_host c; ch_send := ch_send c ++ [f]; ch_recv := ch_recv c;
                   ch_call := ch_call c; ch_cb := r;
                   ch_sent := ch_sent c ++ [f]; ch_taken := ch_taken c; ch_passed := ch_passed c; ch_handled := ch_handled c |}.
(** Any other goroutine sends a frame, 163.  transport/wasmrs/host/instance.go 151-165 *)
Inductive other_step (c : chans) : chans -> Prop :=
| LOther f : (List.length (ch_send c) < a)%nat ->
    other_step c {| ch_guest := ch_guest c; ch_host := ch_host c; ch_send := ch_send c ++ [f]; ch_recv := ch_recv c;
                    ch_call := ch_call c; ch_cb := ch_cb c;
                    ch_sent := ch_sent c ++ [f]; ch_taken := ch_taken c; ch_passed := ch_passed c; ch_handled := ch_handled c |}.
(** transport/wasmrs/host/instance.go 151-219 *)
Definition any_step (c c' : chans) : Prop := loop_step c c' \/ other_step c c'.
End Chan.
Arguments chans : clear implicits.
