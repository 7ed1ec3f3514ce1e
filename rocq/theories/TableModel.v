(** Model of the record codecs apex generates, for any list of fields: the shape
    shared by
    - /repo/example/greeter/greeter.go 23-63 and /repo/transport/wasmrs/example/greeting.go
      54-94 (GreetingRequest), /repo/transport/wasmrs/mesh/modules/customer/types.go 12-52 (Customer),
    - /repo/transport/wasmrs/mesh/modules/greeting/types.go 11-47 (GreetingRequest with one field),
    - /repo/transport/wasmrs/example/counter.go 46-82 (CounterRequest),
    - /repo/transport/wasmrs/example/concat/generated.go 108-148 and
      /repo/transport/wasmrs/mesh/modules/concat/types.go 12-52 (Strings),
    - /repo/transport/wasmrs/example/wordfrequency/generated.go 126-166 (WordCount). *)
From Verif Require Import Base MsgpackModel RecordModel.

(** A field: its name, the read of its value as an assignment to the record
    ([case "x": r.X, err = decoder.ReadT()]), the write of its value
    ([encoder.WriteT(r.X)]).  transport/wasmrs/example/counter.go 58-62, 78-80 *)
Record rfield (R : Type) := { f_name : bytes; f_read : rd (R -> R); f_put : R -> prim }.
Arguments f_name {R} _.
Arguments f_read {R} _ _.
Arguments f_put {R} _ _.
Arguments Build_rfield {R} _ _ _.

Section Table.
Context {R : Type}.
Variable table : list (rfield R).
(** transport/wasmrs/example/counter.go 58-62 *)
Definition the_field (name : bytes) : option (rfield R) := find (fun f => bytes_eqb name (f_name f)) table.
(** The loop of [Decode], e.g. transport/wasmrs/example/counter.go 52-68; [fuel] bounds the number of
    fields and the recursion of [Skip]. *)
Fixpoint tab_fields (fuel : nat) (n : N) (g : R) (r : reader) : option (res R * reader) :=
  match fuel with
  | O => None
  | S f =>
      if n =? 0 then Some (Ok g, r)
      else orun (Some (read_str r)) (fun field r =>
        orun
          (match the_field field with
           | Some x => orun (Some (f_read x r)) (fun u r => Some (Ok (u g), r))
           | None => orun (skip f r) (fun _ r => Some (Ok g, r))
           end)
          (fun g r => tab_fields f (n - 1) g r))
  end.
(** [Decode], e.g. transport/wasmrs/example/counter.go 46-71, into the record [zero]; callers drop the
    record on an error. *)
Definition tab_decode (zero : R) (fuel : nat) (r : reader) : option (res R * reader) :=
  orun (Some (read_map r)) (fun n r => tab_fields fuel n zero r).
(** [Encode], e.g. transport/wasmrs/example/counter.go 73-82; [None] is a nil pointer. *)
Definition tab_encode (g : option R) : list wcall :=
  match g with
  | None => [inl PNil]
  | Some g => inl (PMap (len table)) :: flat_map (fun f => [inl (PStr (f_name f)); inl (f_put f g)]) table
  end.
End Table.

(** A field read by [d].  transport/wasmrs/example/counter.go 58-62, 78-80 *)
Definition a_field {R A} (name : bytes) (d : rd A) (set : A -> R -> R) (put : R -> prim) : rfield R :=
  Build_rfield name (a <~ d ;; rret (set a)) put.
(** transport/wasmrs/example/counter.go 42-44, 59-60, 78-80: "to" *)
Definition name_to : bytes := [116; 111].
(** transport/wasmrs/example/counter.go 42-44, 59-60, 78-80 *)
Definition counter_table : list (rfield N) := [a_field name_to read_uint64 (fun v _ => v) PUint].
(** transport/wasmrs/example/concat/generated.go 103-106, 121-124, 142-146 (and types.go): "left", "right"; the pair of them *)
Definition name_left : bytes := [108; 101; 102; 116].
(** transport/wasmrs/example/concat/generated.go 123, 145 *)
Definition name_right : bytes := [114; 105; 103; 104; 116].
(** transport/wasmrs/example/concat/generated.go 103-106, 121-124, 142-146 *)
Definition strings_table : list (rfield (bytes * bytes)) :=
  [a_field name_left read_str (fun s g => (s, snd g)) (fun g => PStr (fst g));
   a_field name_right read_str (fun s g => (fst g, s)) (fun g => PStr (snd g))].
(** transport/wasmrs/example/wordfrequency/generated.go 121-124, 139-142, 160-164: "word", "count" *)
Definition name_word : bytes := [119; 111; 114; 100].
(** transport/wasmrs/example/wordfrequency/generated.go 141, 163 *)
Definition name_count : bytes := [99; 111; 117; 110; 116].
(** transport/wasmrs/example/wordfrequency/generated.go 121-124, 139-142, 160-164 *)
Definition count_table : list (rfield (bytes * N)) :=
  [a_field name_word read_str (fun s g => (s, snd g)) (fun g => PStr (fst g));
   a_field name_count read_uint64 (fun n g => (fst g, n)) (fun g => PUint (snd g))].
(** example/greeter/greeter.go 18-21, 36-39, 57-61 (and greeting.go, customer/types.go) *)
Definition greeting_table : list (rfield greeting) :=
  [a_field first_name read_str (fun s g => {| g_first := s; g_last := g_last g |}) (fun g => PStr (g_first g));
   a_field last_name read_str (fun s g => {| g_first := g_first g; g_last := s |}) (fun g => PStr (g_last g))].
