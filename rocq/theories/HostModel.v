(** Model of /repo/transport/wasmrs/host/instance.go 106-125 and 221-589 as far
    as requests are counted: requests of the guest, their goroutines and
    callbacks, and Close.

    Every access to an atomic variable or channel is one step.  Full channels
    (a send then waits) are covered by a goroutine not being scheduled. *)
From Verif Require Import Base InvokeModel.

(** What a goroutine or callback still has to do: [SendFrame] (151-165) and
    [reduceActiveRequests] (transport/wasmrs/host/instance.go 121-125). *)
Inductive instr := ISend | IReduce.
(** Inside [reduceActiveRequests], when the counter was found not positive:
    before [closing.Load], before [close(i.closed)] (122, 123).  transport/wasmrs/host/instance.go 121-125 *)
Inductive redstate := RLoad | RClose.
(** transport/wasmrs/host/instance.go 121-125 *)
Record thread := { th_todo : list instr; th_red : option redstate }.
(** [Close], transport/wasmrs/host/instance.go 106-119: not called, after [closing.Store], waiting for [i.closed]
    (111), past the wait, returned. *)
Inductive closer := CNone | CStored | CWaiting | CGo | CReturned.
(** transport/wasmrs/host/instance.go 45-56 *)
Record inst := { in_active : Z; in_closing : bool; in_closed : bool; in_chans : bool; in_close : closer; in_threads : list thread; in_panic : bool }.
(** transport/wasmrs/host/instance.go 67-104 *)
Definition inst_init : inst :=
  {| in_active := 0; in_closing := false; in_closed := false; in_chans := false; in_close := CNone; in_threads := []; in_panic := false |}.

(** How a request frame turns out: too little metadata (647-657), no handler,
    or a handler that makes [items] OnNext calls before its last one and whose
    input is cancelled [cancels] times.  transport/wasmrs/host/instance.go 397-589 *)
Inductive outcome := BadMetadata | NotFound | Served (items cancels : nat).
(** 397-462: what runs for a request, each piece in one goroutine or callback
    that may run at any later time or never.  transport/wasmrs/host/instance.go 397-589 *)
Definition work (k : kind) (o : outcome) : list (list instr) :=
  match o, k with
  | BadMetadata, _ => [[ISend]]                                              (* 398, 441, 465, 519 *)
  | NotFound, (RR | RC) => [[ISend; IReduce]]                                (* 411-416, 532-537 *)
  | NotFound, (FNF | RS) => [[ISend]]                                        (* 454-458, 478-482 *)
  | Served _ _, RR => [[ISend; IReduce]]                                     (* 419-437 *)
  | Served _ _, FNF => [[]]                                                  (* 461 *)
  | Served n _, RS => [repeat ISend n ++ [ISend; IReduce]]                   (* 488-512 *)
  | Served n m, RC => (repeat ISend n ++ [ISend; IReduce]) :: repeat [ISend; IReduce] m   (* 561-585, 552-557 *)
  end.
(** transport/wasmrs/host/instance.go 257-307 *)
Definition spawn (l : list instr) : thread := {| th_todo := l; th_red := None |}.

(** A request is taken from recvCh (256, 273, 289, 306); goroutine [i] goes on;
    [Close] goes on.  transport/wasmrs/host/instance.go 256-307 *)
Inductive action := AAccept (k : kind) (o : outcome) | ARun (i : nat) | AClose.
(** transport/wasmrs/host/instance.go 123, 163 *)
Definition crash (s : inst) : inst :=
  {| in_active := in_active s; in_closing := in_closing s; in_closed := in_closed s; in_chans := in_chans s; in_close := in_close s;
     in_threads := in_threads s; in_panic := true |}.
(** transport/wasmrs/host/instance.go 397-589 *)
Definition put_thread (i : nat) (t : thread) (s : inst) : inst :=
  {| in_active := in_active s; in_closing := in_closing s; in_closed := in_closed s; in_chans := in_chans s; in_close := in_close s;
     in_threads := firstn i (in_threads s) ++ t :: skipn (S i) (in_threads s); in_panic := in_panic s |}.
(** transport/wasmrs/host/instance.go 121-125 *)
Definition with_active (n : Z) (s : inst) : inst :=
  {| in_active := n; in_closing := in_closing s; in_closed := in_closed s; in_chans := in_chans s; in_close := in_close s;
     in_threads := in_threads s; in_panic := in_panic s |}.
(** transport/wasmrs/host/instance.go 123 *)
Definition with_closed (s : inst) : inst :=
  {| in_active := in_active s; in_closing := in_closing s; in_closed := true; in_chans := in_chans s; in_close := in_close s;
     in_threads := in_threads s; in_panic := in_panic s |}.
(** transport/wasmrs/host/instance.go 106-119 *)
Definition with_close (c : closer) (s : inst) : inst :=
  {| in_active := in_active s; in_closing := match c with CNone => in_closing s | _ => true end; in_closed := in_closed s;
     in_chans := match c with CReturned => true | _ => in_chans s end; in_close := c; in_threads := in_threads s; in_panic := in_panic s |}.
(** transport/wasmrs/host/instance.go 121-125, 151-165 *)
Definition run_thread (i : nat) (t : thread) (s : inst) : inst :=
  match th_red t with
  | Some RLoad => put_thread i {| th_todo := th_todo t; th_red := if in_closing s then Some RClose else None |} s      (* 122 *)
  | Some RClose => if in_closed s then crash s else put_thread i {| th_todo := th_todo t; th_red := None |} (with_closed s)   (* 123 *)
  | None =>
      match th_todo t with
      | [] => s
      | ISend :: rest => if in_chans s then crash s else put_thread i {| th_todo := rest; th_red := None |} s          (* 163 *)
      | IReduce :: rest =>
          let n := (in_active s - 1)%Z in                                                                              (* 122 *)
          put_thread i {| th_todo := rest; th_red := if (n <=? 0)%Z then Some RLoad else None |} (with_active n s)
      end
  end.
(** transport/wasmrs/host/instance.go 106-125, 256-307 *)
Definition hact (a : action) (s : inst) : inst :=
  if in_panic s then s
  else match a with
  | AAccept k o =>
      {| in_active := match k with FNF => in_active s | _ => (in_active s + 1)%Z end; in_closing := in_closing s; in_closed := in_closed s;
         in_chans := in_chans s; in_close := in_close s; in_threads := in_threads s ++ map spawn (work k o); in_panic := false |}
  | ARun i => match nth_error (in_threads s) i with Some t => run_thread i t s | None => s end
  | AClose =>
      match in_close s with
      | CNone => with_close CStored s                                        (* 108 *)
      | CStored => with_close (if (0 <? in_active s)%Z then CWaiting else CGo) s   (* 110 *)
      | CWaiting => if in_closed s then with_close CGo s else s              (* 111 *)
      | CGo => with_close CReturned s                                        (* 114-115 *)
      | CReturned => s
      end
  end.
(** transport/wasmrs/host/instance.go 106-125, 256-307 *)
Fixpoint hacts (l : list action) (s : inst) : inst := match l with [] => s | a :: l' => hacts l' (hact a s) end.
