(** Model of /repo/rx/flux/slice.go and response.go as run by the goroutines of
    /repo/rx/flux/flux_host.go 20-26: every access to the captured variable, every
    call of the sink and every operation on a subscriber's mutex is one step, and
    any goroutine may be next. *)
From Verif Require Import Base.

Section Race.
Context {V L : Type}.
(** A request function: its local state when called with [n]; one step on the
    captured slice, giving the next local state (or the return), the new slice,
    what was passed to [sink.Next], and whether [sink.Complete] was called.
    [None] is a panic. *)
Context (start : Z -> L) (body : L -> list V -> option (option L * list V * list V * bool)).

(** A goroutine started by [doRequest(n)] of subscriber [sub] (21): before the
    lock (22), inside the request function (24), after the unlock (23).  rx/flux/flux_host.go 20-26 *)
Inductive gphase := GWaiting | GInside (l : L) | GReturned.
(** rx/flux/flux_host.go 20-26 *)
Record goroutine := { g_sub : nat; g_n : Z; g_phase : gphase }.
(** [rc_held]: the subscribers whose mutex is held.  rx/flux/flux_host.go 20-26 *)
Record race := { rc_slice : list V; rc_next : list (nat * V); rc_complete : list nat; rc_held : list nat; rc_go : list goroutine; rc_panic : bool }.
(** rx/flux/flux_host.go 20-26 *)
Definition race_init (slice : list V) : race := {| rc_slice := slice; rc_next := []; rc_complete := []; rc_held := []; rc_go := []; rc_panic := false |}.
(** rx/flux/flux_host.go 20-26 *)
Inductive race_op := RSpawn (sub : nat) (n : Z) | RStep (i : nat).
(** rx/flux/flux_host.go 20-26 *)
Definition put_go (i : nat) (g : goroutine) (p : gphase) (l : list goroutine) : list goroutine :=
  firstn i l ++ {| g_sub := g_sub g; g_n := g_n g; g_phase := p |} :: skipn (S i) l.
(** rx/flux/flux_host.go 20-26 *)
Definition race_step (x : race_op) (c : race) : race :=
  if rc_panic c then c else
  match x with
  | RSpawn sub n =>
      {| rc_slice := rc_slice c; rc_next := rc_next c; rc_complete := rc_complete c; rc_held := rc_held c;
         rc_go := rc_go c ++ [{| g_sub := sub; g_n := n; g_phase := GWaiting |}]; rc_panic := false |}
  | RStep i =>
      match nth_error (rc_go c) i with
      | None => c
      | Some g =>
          match g_phase g with
          | GReturned => c
          | GWaiting =>
              if existsb (Nat.eqb (g_sub g)) (rc_held c) then c
              else {| rc_slice := rc_slice c; rc_next := rc_next c; rc_complete := rc_complete c; rc_held := g_sub g :: rc_held c;
                      rc_go := put_go i g (GInside (start (g_n g))) (rc_go c); rc_panic := false |}
          | GInside l =>
              match body l (rc_slice c) with
              | None => {| rc_slice := rc_slice c; rc_next := rc_next c; rc_complete := rc_complete c; rc_held := rc_held c; rc_go := rc_go c; rc_panic := true |}
              | Some (r, slice, out, done) =>
                  {| rc_slice := slice; rc_next := rc_next c ++ map (pair (g_sub g)) out;
                     rc_complete := rc_complete c ++ (if done then [g_sub g] else []);
                     rc_held := match r with Some _ => rc_held c | None => remove Nat.eq_dec (g_sub g) (rc_held c) end;
                     rc_go := put_go i g (match r with Some l' => GInside l' | None => GReturned end) (rc_go c); rc_panic := false |}
              end
          end
      end
  end.
(** rx/flux/flux_host.go 20-26 *)
Definition race_run (l : list race_op) (slice : list V) : race := fold_left (fun c x => race_step x c) l (race_init slice).
End Race.

(** The function returned by [SliceResponse], rx/flux/response.go 4-15: before 5, at the
    head of the loop 9 with [i] and [num], before 13.  A negative [num] is [n] and
    makes [slice[num:]] panic. *)
Inductive rlocal := QStart (n : Z) | QLoop (i num : nat) | QEnd.
(** rx/flux/response.go 4-15 *)
Definition resp_body {V} (l : rlocal) (slice : list V) : option (option rlocal * list V * list V * bool) :=
  match l with
  | QStart n => if (n <? 0)%Z then None else Some (Some (QLoop 0 (Nat.min (List.length slice) (Z.to_nat n))), slice, [], false)
  | QLoop i num =>
      if (i <? num)%nat then
        match nth_error slice i with Some v => Some (Some (QLoop (S i) num), slice, [v], false) | None => None end
      else if (num <=? List.length slice)%nat then Some (Some QEnd, skipn num slice, [], false) else None
  | QEnd => Some (None, slice, [], Nat.eqb (List.length slice) 0)
  end.

(** The request function of [FromSlice], rx/flux/slice.go 7-16: at the head of the loop
    with [i] (8), before reading [values[0]] (9), before shortening it (10),
    before [sink.Next] (11), before 13. *)
Inductive slocal (V : Type) := SHead (i : Z) | SRead (i : Z) | SShift (i : Z) (v : V) | SSend (i : Z) (v : V) | SEnd.
Arguments SHead {V}. Arguments SRead {V}. Arguments SShift {V}. Arguments SSend {V}. Arguments SEnd {V}.
(** rx/flux/slice.go 7-16 *)
Definition slice_body {V} (l : slocal V) (values : list V) : option (option (slocal V) * list V * list V * bool) :=
  match l with
  | SHead i => Some (Some (if (0 <? i)%Z && negb (Nat.eqb (List.length values) 0) then SRead i else SEnd), values, [], false)
  | SRead i => match values with v :: _ => Some (Some (SShift i v), values, [], false) | [] => None end
  | SShift i v => match values with _ :: r => Some (Some (SSend i v), r, [], false) | [] => None end
  | SSend i v => Some (Some (SHead (i - 1)), values, [v], false)
  | SEnd => Some (None, values, [], Nat.eqb (List.length values) 0)
  end.
