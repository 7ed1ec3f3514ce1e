(** Models of /repo/rx/mono/mono.go 37-93 (the monos that [Error] and [Just] make)
    and 199-247 with /repo/rx/mono/mono_host.go 33-50 (any stack of [Map] on top of
    them), as their user sees them.

    The types of the stages are one type [V].  A transform is named by a number;
    what it returns may depend on everything that happened before, so it may keep
    state, but it does not use the mono.  [Block] starts a goroutine and waits for
    it: as everything here runs in place, the goroutine is run at once.  Callbacks
    only record that they were called. *)
From Verif Require Import Base.

Section Imm.
Context {V E : Type}.

(** What can be observed: a transform called, the four callbacks of a subscription,
    results of Get and Block ([None]: Block waits for ever), notifications, and the
    channel of a Block closed.  rx/mono/mono.go 21-26, 41-93, 211-247; rx/mono/mono_host.go 33-50 *)
Inductive imev : Type :=
| ETx (n : N) (v : V)
| EValue (id : N) (v : V)
| EFail (id : N) (e : E)
| ERequested (id : N)
| EFinal (id : N) (ok : bool)
| EGot (r : V + E)
| EClosed (r : V + E)
| EBlocked (r : option (V + E))
| ETwiceClosed
| ENotified (id : N) (ok : bool).

(** rx/mono/mono.go 37-39, 66-68, 199-204 *)
Inductive imono : Type :=
| IError (e : E)
| IJust (v : V)
| IMap (n : N) (m : imono).

(** A transform, given what happened so far; an error is [inr].  rx/mono/mono.go 199, 214 *)
Variable tx : list imev -> N -> V -> V + E.

(** rx/mono/mono.go 21-26: absent callbacks are nil *)
Record isub : Type := {
  is_success : option (V -> list imev -> list imev);
  is_error : option (E -> list imev -> list imev);
  is_request : option (list imev -> list imev);
  is_finally : option (bool -> list imev -> list imev) }.

(** rx/mono/mono.go 41-46, 73-78, 211-230 *)
Fixpoint isubscribe (m : imono) (sub : isub) (t : list imev) : list imev :=
  match m with
  | IError e => match is_error sub with Some f => f e t | None => t end
  | IJust v => match is_success sub with Some f => f v t | None => t end
  | IMap n m' =>
      isubscribe m'
        {| is_success := Some (fun v t =>
             let t' := t ++ [ETx n v] in
             match tx t n v with
             | inr e => match is_error sub with Some f => f e t' | None => t' end
             | inl w => match is_success sub with Some f => f w t' | None => t' end
             end);
           is_error := is_error sub; is_request := is_request sub; is_finally := is_finally sub |} t
  end.

(** rx/mono/mono.go 53-56, 84-86, 240-247 *)
Fixpoint iget (m : imono) (t : list imev) : (V + E) * list imev :=
  match m with
  | IError e => (inr e, t)
  | IJust v => (inl v, t)
  | IMap n m' =>
      let (r, t') := iget m' t in
      match r with
      | inr e => (inr e, t')
      | inl v => (tx t' n v, t' ++ [ETx n v])
      end
  end.

(** rx/mono/mono.go 61-63, 91-93, 236-238: [false] is SignalError *)
Fixpoint inotify (m : imono) : bool :=
  match m with IError _ => false | IJust _ => true | IMap _ m' => inotify m' end.

(** The subscription of a Block, rx/mono/mono_host.go 36-45. *)
Definition block_sub : isub :=
  {| is_success := Some (fun v t => t ++ [EClosed (inl v)]); is_error := Some (fun e t => t ++ [EClosed (inr e)]); is_request := None; is_finally := None |}.
(** What was written to the channel of a Block, rx/mono/mono_host.go 33-50. *)
Definition closed_in (t : list imev) : list (V + E) := flat_map (fun x => match x with EClosed r => [r] | _ => [] end) t.
(** rx/mono/mono.go 48-51, 80-82; rx/mono/mono_host.go 33-50: closing twice panics, not closing blocks. *)
Definition iblock (m : imono) (t : list imev) : list imev :=
  match m with
  | IError e => t ++ [EBlocked (Some (inr e))]
  | IJust v => t ++ [EBlocked (Some (inl v))]
  | IMap _ _ =>
      let t' := isubscribe m block_sub t in
      match skipn (List.length (closed_in t)) (closed_in t') with
      | [] => t' ++ [EBlocked None]
      | [r] => t' ++ [EBlocked (Some r)]
      | _ => t' ++ [ETwiceClosed]
      end
  end.

(** A use of the mono; [s], [e], [q], [f] say which callbacks are given.
    rx/mono/mono.go 11-17, 21-26 *)
Inductive imop : Type :=
| USubscribe (id : N) (s e q f : bool)
| UGet
| UBlock
| UAsync
| UNotify (id : N).

(** rx/mono/mono.go 21-26 *)
Definition user_sub (id : N) (s e q f : bool) : isub :=
  {| is_success := if s then Some (fun v t => t ++ [EValue id v]) else None;
     is_error := if e then Some (fun x t => t ++ [EFail id x]) else None;
     is_request := if q then Some (fun t => t ++ [ERequested id]) else None;
     is_finally := if f then Some (fun b t => t ++ [EFinal id b]) else None |}.

(** rx/mono/mono.go 41-93, 211-247 *)
Definition imstep (m : imono) (x : imop) (t : list imev) : list imev :=
  match x with
  | USubscribe id s e q f => isubscribe m (user_sub id s e q f) t
  | UGet => let (r, t') := iget m t in t' ++ [EGot r]
  | UBlock => iblock m t
  | UAsync => t
  | UNotify id => t ++ [ENotified id (inotify m)]
  end.
(** The mono used again and again.  rx/mono/mono.go 41-93, 211-247 *)
Definition imrun (m : imono) (xs : list imop) : list imev := fold_left (fun t x => imstep m x t) xs [].
End Imm.
Arguments imev : clear implicits.
Arguments imono : clear implicits.
