(** Model of /repo/rx/flow/flow.go 24-27 (End) and 87-122 (next, check).

    Awaited operations ([await.Awaitable]) are numbered; all that matters of
    them is when they complete: while a step runs, inside [Async] of some
    operation, or later from outside.  A completed operation calls every
    notification registered with it once, and a notification registered after
    completion at once (see C49 for monos).  Steps are arbitrary functions of
    the history.  One subscription of the flow is modelled, and the list of steps is
    not extended while it runs.  Calls do not interleave: an outside completion is
    handled when no other call is in progress. *)
From Verif Require Import Base.

Section Flow.
Context {E : Type}.
(** Step [k] was started; it returned an error, which is reported to the sink;
    it returned after [End]; it returned these operations; an operation completed.  rx/flow/flow.go 87-122 *)
Inductive levent := LRan (k : nat) | LFailed (k : nat) (e : E) | LEnded (k : nat) | LAwaits (k : nat) (ops : list N) | LDone (o : N).
(** What a step does: operations completed meanwhile, whether [End] is called,
    and the result (rx/flow/flow.go 21). *)
Record sres := { sr_done : list N; sr_end : bool; sr_err : option E; sr_group : list N }.
(** rx/flow/flow.go 21 *)
Definition step := list levent -> sres.
(** rx/flow/flow.go 87-122 *)
Inductive litem := INext | IDone (o : N) | IRet (k : nat) (r : sres) | IReg (o : N) | INotify (o : N) | ICheck | IAdvance.
(** rx/flow/flow.go 11-19; [l_done] and [l_regs] are the state of the operations: completed
    ones and the notifications registered with the others. *)
Record lconf := { l_steps : list (nat * step); l_ended : bool; l_completed : nat; l_waiting : nat;
  l_done : list N; l_regs : list N; l_trace : list levent; l_stack : list litem; l_panicked : bool }.
(** rx/flow/flow.go 109-112 *)
Definition mem (o : N) (l : list N) : bool := existsb (N.eqb o) l.

(** [async t o]: the operations that complete inside [Async] of [o]. *)
Variable async : list levent -> N -> list N.

(** rx/flow/flow.go 87-122 *)
Definition l_push (c : lconf) (ev : list levent) (stack : list litem) : lconf :=
  {| l_steps := l_steps c; l_ended := l_ended c; l_completed := l_completed c; l_waiting := l_waiting c;
     l_done := l_done c; l_regs := l_regs c; l_trace := l_trace c ++ ev; l_stack := stack; l_panicked := l_panicked c |}.
(** rx/flow/flow.go 87-94 *)
Definition do_next (rest : list litem) (c : lconf) : lconf :=
  match l_steps c with
  | [] => l_push c [] rest
  | (k, f) :: _ =>
      let r := f (l_trace c) in
      {| l_steps := l_steps c; l_ended := l_ended c || sr_end r; l_completed := 0; l_waiting := l_waiting c;
         l_done := l_done c; l_regs := l_regs c; l_trace := l_trace c ++ [LRan k];
         l_stack := map IDone (sr_done r) ++ IRet k r :: rest; l_panicked := l_panicked c |}
  end.
(** rx/flow/flow.go 95-112: the loop body is [IReg], the last line [IAdvance] *)
Definition do_ret (k : nat) (r : sres) (rest : list litem) (c : lconf) : lconf :=
  match sr_err r with
  | Some e => l_push c [LFailed k e] rest
  | None =>
      if l_ended c then l_push c [LEnded k] rest
      else {| l_steps := l_steps c; l_ended := l_ended c; l_completed := l_completed c; l_waiting := List.length (sr_group r);
              l_done := l_done c; l_regs := l_regs c; l_trace := l_trace c ++ [LAwaits k (sr_group r)];
              l_stack := map IReg (sr_group r) ++ IAdvance :: rest; l_panicked := l_panicked c |}
  end.
(** rx/flow/flow.go 114; slicing an empty list from 1 panics *)
Definition do_advance (rest : list litem) (c : lconf) : lconf :=
  match l_steps c with
  | [] => {| l_steps := []; l_ended := l_ended c; l_completed := l_completed c; l_waiting := l_waiting c;
             l_done := l_done c; l_regs := l_regs c; l_trace := l_trace c; l_stack := []; l_panicked := true |}
  | _ :: s => {| l_steps := s; l_ended := l_ended c; l_completed := l_completed c; l_waiting := l_waiting c;
                 l_done := l_done c; l_regs := l_regs c; l_trace := l_trace c; l_stack := rest; l_panicked := l_panicked c |}
  end.
(** rx/flow/flow.go 117-122 *)
Definition do_check (rest : list litem) (c : lconf) : lconf :=
  let n := S (l_completed c) in
  {| l_steps := l_steps c; l_ended := l_ended c; l_completed := n; l_waiting := l_waiting c;
     l_done := l_done c; l_regs := l_regs c; l_trace := l_trace c;
     l_stack := if (l_waiting c <=? n)%nat then INext :: rest else rest; l_panicked := l_panicked c |}.
(** [Notify] of an operation; rx/flow/flow.go 111 *)
Definition do_notify (o : N) (rest : list litem) (c : lconf) : lconf :=
  if mem o (l_done c) then l_push c [] (ICheck :: rest)
  else {| l_steps := l_steps c; l_ended := l_ended c; l_completed := l_completed c; l_waiting := l_waiting c;
          l_done := l_done c; l_regs := l_regs c ++ [o]; l_trace := l_trace c; l_stack := rest; l_panicked := l_panicked c |}.
(** Completion of an operation; rx/flow/flow.go 111 *)
Definition do_done (o : N) (rest : list litem) (c : lconf) : lconf :=
  if mem o (l_done c) then l_push c [] rest
  else {| l_steps := l_steps c; l_ended := l_ended c; l_completed := l_completed c; l_waiting := l_waiting c;
          l_done := o :: l_done c; l_regs := filter (fun o' => negb (N.eqb o' o)) (l_regs c);
          l_trace := l_trace c ++ [LDone o];
          l_stack := repeat ICheck (List.length (filter (fun o' => N.eqb o' o) (l_regs c))) ++ rest; l_panicked := l_panicked c |}.
(** One step: the call in progress goes on; if there is none, operation [o]
    completes.  rx/flow/flow.go 87-122 *)
Definition lstep (c : lconf) (o : N) : lconf :=
  if l_panicked c then c else
  match l_stack c with
  | [] => l_push c [] [IDone o]
  | i :: rest =>
      match i with
      | INext => do_next rest c
      | IDone o' => do_done o' rest c
      | IRet k r => do_ret k r rest c
      | IReg o' => l_push c [] (map IDone (async (l_trace c) o') ++ INotify o' :: rest)
      | INotify o' => do_notify o' rest c
      | ICheck => do_check rest c
      | IAdvance => do_advance rest c
      end
  end.
(** rx/flow/flow.go 87-122 *)
Definition lrun (sched : list N) (c : lconf) : lconf := fold_left lstep sched c.
(** rx/flow/flow.go 73-85: the flow is subscribed *)
Definition linit (steps : list step) : lconf :=
  {| l_steps := combine (seq 0 (List.length steps)) steps; l_ended := false; l_completed := 0; l_waiting := 0;
     l_done := []; l_regs := []; l_trace := []; l_stack := [INext]; l_panicked := false |}.
End Flow.
Arguments levent : clear implicits.
Arguments sres : clear implicits.
Arguments litem : clear implicits.
Arguments lconf : clear implicits.
Arguments step : clear implicits.
