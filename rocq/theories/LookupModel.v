(** Model of /repo/proxy/lookup.go: the table of open streams, a doubly linked
    list.  Nodes live in a heap (addresses are indexes, nodes are never freed);
    [None] is nil.  Every method is one step ([Add], [Remove], [Size] hold the
    mutex; [Get] does not, so a [Get] concurrent with an update is a data race
    that is not modelled).  A stream is its id with an opaque value. *)
From Verif Require Import Base.

(** proxy/lookup.go 15-18 *)
Definition stream := (N * N)%type.
(** proxy/lookup.go 15-18 *)
Record node := { n_prev : option nat; n_next : option nat; n_stream : stream }.
(** proxy/lookup.go 8-13; [count] is an int. *)
Record lookup := { lk_heap : list node; lk_count : Z; lk_head : option nat; lk_tail : option nat }.
(** proxy/lookup.go 8-13 *)
Definition lookup_init : lookup := {| lk_heap := []; lk_count := 0%Z; lk_head := None; lk_tail := None |}.

(** proxy/lookup.go 58-60, 78-83 *)
Fixpoint upd {A} (l : list A) (i : nat) (f : A -> A) : list A :=
  match l, i with
  | [], _ => []
  | x :: l', O => f x :: l'
  | x :: l', S i' => x :: upd l' i' f
  end.
(** proxy/lookup.go 59, 79 *)
Definition set_next (v : option nat) (n : node) : node :=
  {| n_prev := n_prev n; n_next := v; n_stream := n_stream n |}.
(** proxy/lookup.go 58, 82 *)
Definition set_prev (v : option nat) (n : node) : node :=
  {| n_prev := v; n_next := n_next n; n_stream := n_stream n |}.

(** [find], proxy/lookup.go 86-93.  [fuel] bounds the traversal; the list is acyclic and the
    heap size suffices (proved with the refinement). *)
Fixpoint find_from (fuel : nat) (h : list node) (p : option nat) (id : N) : option nat :=
  match fuel, p with
  | S fuel', Some a =>
      match nth_error h a with
      | Some n => if fst (n_stream n) =? id then Some a else find_from fuel' h (n_next n) id
      | None => None
      end
  | _, _ => None
  end.
(** proxy/lookup.go 86-93 *)
Definition find (l : lookup) (id : N) : option nat :=
  find_from (List.length (lk_heap l)) (lk_heap l) (lk_head l) id.
(** The loop of [Add], proxy/lookup.go 54-57. *)
Fixpoint last_from (fuel : nat) (h : list node) (a : nat) : nat :=
  match fuel with
  | O => a
  | S fuel' =>
      match nth_error h a with
      | Some n => match n_next n with Some b => last_from fuel' h b | None => a end
      | None => a
      end
  end.

(** [Get], proxy/lookup.go 35-41 *)
Definition lookup_get (l : lookup) (id : N) : option stream :=
  match find l id with
  | Some a => match nth_error (lk_heap l) a with Some n => Some (n_stream n) | None => None end
  | None => None
  end.
(** [Size], proxy/lookup.go 21-26 *)
Definition lookup_size (l : lookup) : Z := lk_count l.
(** [Add], proxy/lookup.go 43-63 *)
Definition lookup_add (s : stream) (l : lookup) : lookup :=
  let new := List.length (lk_heap l) in
  let h := lk_heap l ++ [{| n_prev := None; n_next := None; n_stream := s |}] in
  match lk_head l with
  | None => {| lk_heap := h; lk_count := (lk_count l + 1)%Z; lk_head := Some new; lk_tail := Some new |}
  | Some a =>
      let cur := last_from (List.length h) h a in
      let h1 := upd h new (set_prev (Some cur)) in
      let h2 := upd h1 cur (set_next (Some new)) in
      {| lk_heap := h2; lk_count := (lk_count l + 1)%Z; lk_head := Some a; lk_tail := Some new |}
  end.
(** [Remove], proxy/lookup.go 65-84 *)
Definition lookup_remove (id : N) (l : lookup) : lookup :=
  match find l id with
  | None => l
  | Some a =>
      match nth_error (lk_heap l) a with
      | None => l
      | Some n =>
          let h := lk_heap l in
          let h1 := match n_prev n with
                    | Some p => upd h p (set_next (n_next n))
                    | None => h
                    end in
          let h2 := match n_next n with
                    | Some q => upd h1 q (set_prev (n_prev n))
                    | None => h1
                    end in
          {| lk_heap := h2; lk_count := (lk_count l - 1)%Z; lk_head := lk_head l; lk_tail := lk_tail l |}
      end
  end.

(** proxy/lookup.go 43-84 *)
Inductive lk_call := LAdd (s : stream) | LRemove (id : N).
(** proxy/lookup.go 43-84 *)
Definition lookup_step (l : lookup) (c : lk_call) : lookup :=
  match c with LAdd s => lookup_add s l | LRemove id => lookup_remove id l end.
(** proxy/lookup.go 43-84 *)
Definition lookup_run (calls : list lk_call) : lookup := fold_left lookup_step calls lookup_init.
