(** Typed calls between the modules of a mesh, and the three modules of
    /repo/transport/wasmrs/mesh/modules: concat, greeting and customer. *)
From Verif Require Import Base FramesModel MsgpackModel InvokeModel TransformModel RecordModel TableModel StubModel
  HandlerModel JointModel JointFacts HandlerCallProps WasmJointFacts MeshModel MeshCallModel InvokeProps.

Section TypedCall.
Variable mods : list (bytes * list reg_call).
Variable m : mesh.
Variable subscribable : nat -> bool -> N -> bool.
Variable service : nat -> N -> pay -> pay + bytes -> Prop.
Variable room : nat -> bool -> N.
Variable answers : nat -> N -> pay -> pay + bytes -> Prop.
Variable text : string -> bytes.
(** What the mono gives that a client method in the guest of instance [a] returns
    for the record [r]: the error of the encoder at once, or, in an execution of
    that instance whose frames fit into its buffers, what was delivered to
    the call, decoded (see StubModel.v for the method; a panic of the decoder ends
    the process and is not an outcome).  The number of the operation is that of
    C30.  transport/wasmrs/mesh/modules/concat/import.go 20-39, transport/wasmrs/mesh/modules/greeting/import.go 20-38 *)
Definition typed_call {R A} (a : nat) (i : info) (table : list (rfield R)) (tr : transform A) (r : R) (x : A + bytes) : Prop :=
  match stub_pay table (import_after (registered mods a) RR i) r with
  | Ok p =>
      exists j o sid k, instance_runs mods m subscribable service room answers a j /\ fits (room a) j /\
        In (HCalled o RR sid p false) (trace_of true j) /\ In k (got o (trace_of true j)) /\
        match k with
        | SNext v => match stub_result tr v with Ok y => x = inl y | Err e => x = inr (text e) | Panic => False end
        | SError e => x = inr e
        | SComplete => False
        end
  | Err e => x = inr (text e)
  | Panic => False
  end.
(** [Get] with its error dropped: the zero value; transport/wasmrs/mesh/modules/customer/cmd/main.go 33, 37 *)
Definition value_of (x : bytes + bytes) : bytes := match x with inl v => v | inr _ => [] end.
(** "concat.v1", "concat" of the client; transport/wasmrs/mesh/modules/concat/import.go 22 *)
Definition concat_op : info := ([99; 111; 110; 99; 97; 116; 46; 118; 49], [99; 111; 110; 99; 97; 116]).
(** "greeting.v1", "sayHello" of the client; transport/wasmrs/mesh/modules/greeting/import.go 22 *)
Definition hello_op : info := ([103; 114; 101; 101; 116; 105; 110; 103; 46; 118; 49], [115; 97; 121; 72; 101; 108; 108; 111]).
(** "concat.v1", "concat" of the wrapper; transport/wasmrs/mesh/modules/concat/export.go 16 *)
Definition concat_export : info := ([99; 111; 110; 99; 97; 116; 46; 118; 49], [99; 111; 110; 99; 97; 116]).
(** "greeting.v1", "sayHello" of the wrapper; transport/wasmrs/mesh/modules/greeting/export.go 16 *)
Definition hello_export : info := ([103; 114; 101; 101; 116; 105; 110; 103; 46; 118; 49], [115; 97; 121; 72; 101; 108; 108; 111]).
(** "flow.v1", "flow"; transport/wasmrs/mesh/modules/customer/export.go 15 *)
Definition customer_op : info := ([102; 108; 111; 119; 46; 118; 49], [102; 108; 111; 119]).
(** transport/wasmrs/mesh/modules/concat/cmd/main.go 16-18 *)
Definition concat_service (g : bytes * bytes) (o : bytes + bytes) : Prop := o = inl (fst g ++ [32] ++ snd g).
(** "Hello, " and the name; transport/wasmrs/mesh/modules/greeting/cmd/main.go 16-18 *)
Definition hello_service (name : bytes) (o : bytes + bytes) : Prop := o = inl ([72; 101; 108; 108; 111; 44; 32] ++ name).
(** [NewCustomer], transport/wasmrs/mesh/modules/customer/cmd/main.go 22-40, in instance [a]: the three steps of the flow
    run one after the other (C56; the two monos are awaited before they have a
    result), so [Get] finds the outcomes of the calls. *)
Definition new_customer (a : nat) (c : greeting) (o : bytes + bytes) : Prop :=
  exists x y, typed_call a concat_op strings_table tr_string (g_first c, g_last c) x /\
    typed_call a hello_op name_table tr_string (value_of x) y /\ o = inl (value_of y).
End TypedCall.
(** What the three modules register, with the numbers of their handlers;
    transport/wasmrs/mesh/modules/concat/cmd/main.go 12-14 *)
Definition concat_module (h : N) : list reg_call := [CExport RR concat_export h].
(** transport/wasmrs/mesh/modules/greeting/cmd/main.go 12-14 *)
Definition greeting_module (h : N) : list reg_call := [CExport RR hello_export h].
(** transport/wasmrs/mesh/modules/customer/cmd/main.go 16-20 *)
Definition customer_module (h : N) : list reg_call := [CImport RR concat_op; CImport RR hello_op; CExport RR customer_op h].
