(** Model of a record codec: GreetingRequest in /repo/example/greeter/greeter.go. *)
From Verif Require Import Base MsgpackModel.

(** example/greeter/greeter.go 18-21 *)
Record greeting := { g_first : bytes; g_last : bytes }.
(** example/greeter/greeter.go 71 *)
Definition greeting0 : greeting := {| g_first := []; g_last := [] |}.
(** The field names "firstName" and "lastName".  example/greeter/greeter.go 36, 58 *)
Definition first_name : bytes := [102; 105; 114; 115; 116; 78; 97; 109; 101].
(** example/greeter/greeter.go 38, 60 *)
Definition last_name : bytes := [108; 97; 115; 116; 78; 97; 109; 101].
(** The loop of [Decode], example/greeter/greeter.go 29-47; [fuel] bounds the number of fields and the
    recursion of [Skip]. *)
Fixpoint greet_fields (fuel : nat) (n : N) (g : greeting) (r : reader) : option (res greeting * reader) :=
  match fuel with
  | O => None
  | S f =>
      if n =? 0 then Some (Ok g, r)
      else orun (Some (read_str r)) (fun field r =>
        orun
          (if bytes_eqb field first_name then orun (Some (read_str r)) (fun s r => Some (Ok {| g_first := s; g_last := g_last g |}, r))
           else if bytes_eqb field last_name then orun (Some (read_str r)) (fun s r => Some (Ok {| g_first := g_first g; g_last := s |}, r))
           else orun (skip f r) (fun _ r => Some (Ok g, r)))
          (fun g r => greet_fields f (n - 1) g r))
  end.
(** [Decode], 23-50, into a zero GreetingRequest.  (On an error the record
    read so far stays in the receiver; the caller, example/greeter/greeter.go 71-75, drops it.) *)
Definition greet_decode (fuel : nat) (r : reader) : option (res greeting * reader) :=
  orun (Some (read_map r)) (fun n r => greet_fields fuel n greeting0 r).
(** [Encode], example/greeter/greeter.go 52-63; [None] is a nil pointer. *)
Definition greet_encode (g : option greeting) : list wcall :=
  match g with
  | None => [inl PNil]
  | Some g => [inl (PMap 2); inl (PStr first_name); inl (PStr (g_first g)); inl (PStr last_name); inl (PStr (g_last g))]
  end.
