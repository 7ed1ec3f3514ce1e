(** Model of the typed clients and wrappers apex generates for a request-response
    operation, for any record and any result type: the shape shared by
    - /repo/example/greeter/greeter.go 69-80 (wrapper) and 94-108 (client),
    - /repo/transport/wasmrs/example/greeting.go 104-115 and 27-41,
    - /repo/transport/wasmrs/mesh/modules/concat export.go 19-30, import.go 25-39,
    - /repo/transport/wasmrs/mesh/modules/greeting export.go 19-30, import.go 25-38,
    - /repo/transport/wasmrs/mesh/modules/customer export.go 19-30 (wrapper only).
    The monos are those of MonoModel.v; here are the functions applied to what
    they deliver. *)
From Verif Require Import Base MsgpackModel InvokeModel TransformModel RecordModel TableModel HandlerModel.

(** [binary.BigEndian.PutUint32(metadata[:], g.opSayHello)] into 8 zero bytes; example/greeter/greeter.go 103-104 *)
Definition stub_meta (op : N) : bytes := be 4 op ++ [0; 0; 0; 0].

Section Stub.
Context {R A : Type}.
Variables (table : list (rfield R)) (zero : R) (tr : transform A).
(** The text of a Go error. *)
Variable text : string -> bytes.

(** The payload a client method sends; [Err] and [Panic] as for [msgpack.ToBytes].  example/greeter/greeter.go 95-105 *)
Definition stub_pay (op : N) (r : R) : res pay :=
  d <- to_bytes (tab_encode table (Some r)) (tab_encode table (Some r)) ;;
  Ok {| py_data := d; py_meta := stub_meta op |}.
(** What the client makes of a payload that comes back; example/greeter/greeter.go 107 *)
Definition stub_result (p : pay) : res A := t_decode tr (py_data p).

(** What [request.Decode] returns for the data of a payload: the result for any
    large enough number of steps; example/greeter/greeter.go 71-73 *)
Definition decodes (data : bytes) (x : res R) : Prop :=
  exists f0, forall f, (f0 <= f)%nat -> exists rd, tab_decode table zero f (new_reader data) = Some (x, rd).
(** [mono.Map(s, transform.String.Encode)]; example/greeter/greeter.go 78, transform/transform.go 27-34 *)
Definition encoded (o : A + bytes) (out : pay + bytes) : Prop :=
  match o with
  | inr e => out = inr e
  | inl a => match t_encode tr a with
             | Ok d => out = inl {| py_data := d; py_meta := [] |}
             | Err e => out = inr (text e)
             | Panic => False
             end
  end.
(** The outcomes of the mono the wrapper of a service returns for a payload; [svc]
    are the outcomes of the service's mono for a record.  example/greeter/greeter.go 69-80 *)
Definition wrapped (svc : R -> A + bytes -> Prop) (p : pay) (out : pay + bytes) : Prop :=
  (exists r o, decodes (py_data p) (Ok r) /\ svc r o /\ encoded o out) \/
  (exists e, decodes (py_data p) (Err e) /\ out = inr (text e)).
End Stub.

(** The operation: "greeting", "sayHello"; example/greeter/greeter.go 66, 90 *)
Definition say_hello : info := ([103; 114; 101; 101; 116; 105; 110; 103], [115; 97; 121; 72; 101; 108; 108; 111]).
(** [SayHello] of the example's service: "Hello, ", the first name, a space, the
    last name; example/greeter/client/main.go 24-27 *)
Definition greeter_service (g : greeting) (o : bytes + bytes) : Prop :=
  o = inl ([72; 101; 108; 108; 111; 44; 32] ++ g_first g ++ [32] ++ g_last g).
(** The payload sent by [Uppercase] of transport/wasmrs/example/greeting.go 44: it has no metadata. *)
Definition uppercase_pay : pay := {| py_data := []; py_meta := [] |}.
(** GreetingRequest with one field, "name"; transport/wasmrs/mesh/modules/greeting/types.go 7-9, 22-24, 43-45 *)
Definition name_name : bytes := [110; 97; 109; 101].
(** transport/wasmrs/mesh/modules/greeting/types.go 7-9, 22-24, 43-45 *)
Definition name_table : list (rfield bytes) := [a_field name_name read_str (fun s _ => s) PStr].
