(** Model of /repo/internal/buffer/unbounded.go.  Every method body runs under
    the mutex, so each call is one atomic step; a channel receive by the reader
    is one atomic step of the Go runtime. *)
From Verif Require Import Base.

Section Buffer.
Context {T : Type}.

(** internal/buffer/unbounded.go 38-43: channel of capacity 1, backlog, disposed; [bf_closed]
    is the closed state of the channel. *)
Record buf := { bf_chan : option T; bf_backlog : list T; bf_disposed : bool; bf_closed : bool }.
(** [NewUnbounded] internal/buffer/unbounded.go 46-48 *)
Definition buf_new : buf :=
  {| bf_chan := None; bf_backlog := []; bf_disposed := false; bf_closed := false |}.

(** [Put] internal/buffer/unbounded.go 51-72.  The send on a closed channel (a panic) cannot be reached in
    Go without passing the [disposed] test; the model makes it explicit. *)
Definition buf_put (x : T) (b : buf) : res (bool * buf) :=
  if bf_disposed b then Ok (false, b)
  else match bf_backlog b with
       | [] =>
           if bf_closed b then Panic
           else match bf_chan b with
           | None => Ok (true, {| bf_chan := Some x; bf_backlog := [];
                                  bf_disposed := false; bf_closed := bf_closed b |})
           | Some _ => Ok (true, {| bf_chan := bf_chan b; bf_backlog := [x];
                                    bf_disposed := false; bf_closed := bf_closed b |})
           end
       | l => Ok (true, {| bf_chan := bf_chan b; bf_backlog := l ++ [x];
                           bf_disposed := false; bf_closed := bf_closed b |})
       end.
(** [close] internal/buffer/unbounded.go 115-121: closing twice panics and is recovered. *)
Definition buf_close (b : buf) : buf :=
  {| bf_chan := bf_chan b; bf_backlog := bf_backlog b;
     bf_disposed := bf_disposed b; bf_closed := true |}.
(** [Load] internal/buffer/unbounded.go 77-94; result n in {-1, 0, 1}. *)
Definition buf_load (b : buf) : res (Z * buf) :=
  match bf_backlog b with
  | x :: l =>
      if bf_closed b then Panic else
      match bf_chan b with
      | None => Ok (1%Z, {| bf_chan := Some x; bf_backlog := l;
                            bf_disposed := bf_disposed b; bf_closed := bf_closed b |})
      | Some _ => Ok (0%Z, b)
      end
  | [] => if bf_disposed b then Ok ((-1)%Z, buf_close b) else Ok (0%Z, b)
  end.
(** [Dispose] internal/buffer/unbounded.go 106-113 *)
Definition buf_dispose (b : buf) : buf :=
  let b' := {| bf_chan := bf_chan b; bf_backlog := bf_backlog b;
               bf_disposed := true; bf_closed := bf_closed b |} in
  match bf_backlog b with [] => buf_close b' | _ => b' end.

(** Receive from [Get()]: a value, the closed signal, or blocked.  internal/buffer/unbounded.go 101-103 *)
Inductive recv_result := RValue (x : T) | RClosed | RBlocked.
(** internal/buffer/unbounded.go 101-103 *)
Definition buf_recv (b : buf) : recv_result * buf :=
  match bf_chan b with
  | Some x => (RValue x, {| bf_chan := None; bf_backlog := bf_backlog b;
                            bf_disposed := bf_disposed b; bf_closed := bf_closed b |})
  | None => if bf_closed b then (RClosed, b) else (RBlocked, b)
  end.

(** Histories: any interleaving of calls by any number of goroutines.  internal/buffer/unbounded.go 51-113 *)
Inductive bop := BPut (x : T) | BRecv | BLoad | BDispose.
(** internal/buffer/unbounded.go 51-113 *)
Inductive bevent := EPut (x : T) (ok : bool) | ERecv (r : recv_result) | ELoad (n : Z) | EDispose.
(** internal/buffer/unbounded.go 51-113 *)
Definition buf_step (b : buf) (o : bop) : res (bevent * buf) :=
  match o with
  | BPut x => r <- buf_put x b ;; Ok (EPut x (fst r), snd r)
  | BRecv => Ok (ERecv (fst (buf_recv b)), snd (buf_recv b))
  | BLoad => r <- buf_load b ;; Ok (ELoad (fst r), snd r)
  | BDispose => Ok (EDispose, buf_dispose b)
  end.
(** internal/buffer/unbounded.go 51-113 *)
Fixpoint buf_run (b : buf) (os : list bop) : res (list bevent * buf) :=
  match os with
  | [] => Ok ([], b)
  | o :: os' =>
      r <- buf_step b o ;;
      s <- buf_run (snd r) os' ;;
      Ok (fst r :: fst s, snd s)
  end.
End Buffer.
Arguments buf T : clear implicits.
Arguments bop T : clear implicits.
Arguments bevent T : clear implicits.
Arguments recv_result T : clear implicits.
