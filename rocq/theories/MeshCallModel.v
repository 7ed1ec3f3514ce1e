(** Calls between the modules of a mesh: the handlers that
    /repo/transport/wasmrs/mesh/mesh.go 237-293 sets for the imports of an
    instance are calls of the host on another instance.  Every instance with its
    guest is a pair of WasmJointModel.v. *)
From Verif Require Import Base FramesModel InvokeModel LookupModel HandlerModel JointModel JointFacts HandlerCallProps WasmEndModel WasmJointModel WasmJointFacts MeshModel MeshProps.

(** The modules in the order they are loaded: file, what the guest registered.
    The host gets the table of that (guest/guest.go 45-68, host/instance.go 190-198).  transport/wasmrs/mesh/mesh.go 128-136 *)
Definition mesh_tables (mods : list (bytes * list reg_call)) : list (bytes * list oper) :=
  map (fun x => (fst x, get_table (reg_run (snd x)))) mods.
(** transport/wasmrs/mesh/mesh.go 138-174: what the guest of instance [n] registered *)
Definition registered (mods : list (bytes * list reg_call)) (n : nat) : list reg_call :=
  match nth_error mods n with Some x => snd x | None => [] end.
(** The handlers for the imports of instance [n], numbered by the import they are
    for; transport/wasmrs/host/instance.go 591-645 *)
Definition import_handlers (m : mesh) (n : nat) (k : kind) (i : N) : option N :=
  match handler m n k i with Some _ => Some i | None => None end.

Section MeshCall.
(** The modules and their mesh; for every instance, which of its fluxes may be
    subscribed, what the request-response handlers of its guest may answer, and
    the sizes of its buffers. *)
Variable mods : list (bytes * list reg_call).
Variable m : mesh.
Variable subscribable : nat -> bool -> N -> bool.
Variable service : nat -> N -> pay -> pay + bytes -> Prop.
Variable room : nat -> bool -> N.

(** What the handlers of instance [n] may answer, where [answers] is that for the
    handlers of the imports of every instance; transport/wasmrs/mesh/mesh.go 249-251 *)
Definition at_instance (answers : nat -> N -> pay -> pay + bytes -> Prop) (n : nat) (guest : bool) (h : N) (q : pay) (r : pay + bytes) : Prop :=
  if guest then service n h q r else answers n h q r.
(** The executions of instance [n] with its guest.  transport/wasmrs/host/instance.go 151-219 *)
Definition instance_runs (answers : nat -> N -> pay -> pay + bytes -> Prop) (n : nat) : joint -> Prop :=
  wruns (registered mods n) (import_handlers m n) (subscribable n) (at_instance answers n) (room n).
(** [destination.RequestResponse], transport/wasmrs/mesh/mesh.go 263-269: the
    answers of the handler of import [i] of instance [n] for the payload [q].
    The host calls the instance of the destination, in an execution of that
    instance, with the index of the destination in the metadata; the mono of that
    call gives the answer.  The frames of that execution fit into its buffers. *)
Definition relays (answers : nat -> N -> pay -> pay + bytes -> Prop) (n : nat) (i : N) (q : pay) (r : pay + bytes) : Prop :=
  exists d b meta j o sid,
    handler m n RR i = Some d /\ forward d (Some (py_meta q)) = Ok (b, Some meta) /\
    instance_runs answers b j /\ fits (room b) j /\
    In (HCalled o RR sid {| py_data := py_data q; py_meta := meta |} false) (trace_of false j) /\
    In (match r with inl v => SNext v | inr e => SError e end) (got o (trace_of false j)).
End MeshCall.
