(** Model of the components with one input value and one output value:
    /repo/transport/wasmrs/example/concat (concat.go, generated.go 36-101) and
    /repo/transport/wasmrs/example/greeter (greeter.go, generated.go 34-99), and of the
    host that joins them, /repo/transport/wasmrs/cmd/fbp/host/main.go 29-44.

    Input and output go through mono processors which have their subscriber
    before anything is pushed (generated.go 50, 74; C50): the first Success is
    handed on, later ones are ignored (rx/mono/mono.go).  In a guest everything
    runs at once.  Only the calls of [sink] that take effect are kept. *)
From Verif Require Import Base MsgpackModel InvokeModel TransformModel TableModel WordModel.

(** What arrives on [in]; the handler has no callback for the end or an error.  transport/wasmrs/example/concat/generated.go 77-99 *)
Inductive cin := GetNext (data meta : bytes) | GetComplete | GetError (e : string).
(** transport/wasmrs/example/concat/generated.go 38-75 *)
Record shot := { sh_in : bool; sh_out : list sinkcall; sh_open : bool }.
(** transport/wasmrs/example/concat/generated.go 38-75 *)
Definition shot_init : shot := {| sh_in := true; sh_out := []; sh_open := true |}.
(** transport/wasmrs/example/concat/generated.go 49-65 *)
Definition emit (k : sinkcall) (c : shot) : shot :=
  if sh_open c then {| sh_in := sh_in c; sh_out := sh_out c ++ [k]; sh_open := match k with KeepNext _ _ => true | _ => false end |} else c.

Section Component.
Context {A : Type}.
(** Names of the ports, the decoding of the input, the function computed. *)
Variables (port_in port_out : bytes) (dec : bytes -> res A) (f : A -> bytes).
(** transport/wasmrs/example/concat/generated.go 49-65, greeter generated.go 48-64: OnSuccess, then Finally *)
Definition shot_answer (s : bytes) (c : shot) : res shot :=
  match t_encode tr_string s with
  | Ok d => m <- encode_port {| po_port := port_out; po_data := []; po_complete := true; po_next := true |} ;;
            Ok (emit KeepComplete (emit (KeepNext d m) c))
  | Err e => Ok (emit KeepComplete (emit (KeepError e) c))
  | Panic => Panic
  end.
(** [strings.Success], [inName.Success]; transport/wasmrs/example/concat/generated.go 95 *)
Definition shot_success (a : A) (c : shot) : res shot :=
  if sh_in c then shot_answer (f a) {| sh_in := false; sh_out := sh_out c; sh_open := sh_open c |} else Ok c.
(** transport/wasmrs/example/concat/generated.go 77-99, greeter generated.go 76-97 *)
Definition shot_step (i : cin) (c : shot) : res shot :=
  match i with
  | GetNext data meta =>
      port <- decode_port meta ;;
      if bytes_eqb (po_port port) port_in then
        if po_next port then
          match dec data with
          | Ok a => shot_success a c
          | Err e => Ok (emit (KeepError e) c)
          | Panic => Panic
          end
        else Ok c
      else Ok c
  | _ => Ok c
  end.
(** transport/wasmrs/example/concat/generated.go 77-99 *)
Fixpoint shot_run (l : list cin) (c : shot) : res shot :=
  match l with [] => Ok c | i :: l' => c' <- shot_step i c ;; shot_run l' c' end.
End Component.

(** "strings", "value", "name", "message"; transport/wasmrs/example/concat/generated.go 86 *)
Definition port_strings : bytes := [115; 116; 114; 105; 110; 103; 115].
(** transport/wasmrs/example/concat/generated.go 57 *)
Definition port_value : bytes := [118; 97; 108; 117; 101].
(** transport/wasmrs/example/greeter/generated.go 85 *)
Definition port_name : bytes := [110; 97; 109; 101].
(** transport/wasmrs/example/greeter/generated.go 56 *)
Definition port_message : bytes := [109; 101; 115; 115; 97; 103; 101].
(** concat.go 12: left, a space, right; [transform.CodecDecode] of Strings with [fuel] steps; transport/wasmrs/example/concat/generated.go 88-94 *)
Definition decode_strings (fuel : nat) (data : bytes) : res (bytes * bytes) :=
  match tab_decode strings_table ([], []) fuel (new_reader data) with Some (x, _) => x | None => Err "out of fuel" end.
(** transport/wasmrs/example/concat/concat.go 12 *)
Definition join_words (g : bytes * bytes) : bytes := fst g ++ [32] ++ snd g.
(** transport/wasmrs/example/concat/generated.go 36-101 *)
Definition concat_run (fuel : nat) : list cin -> shot -> res shot := shot_run port_strings port_value (decode_strings fuel) join_words.
(** transport/wasmrs/example/greeter/greeter.go 12: "Hello, " *)
Definition hello : bytes := [72; 101; 108; 108; 111; 44; 32].
(** transport/wasmrs/example/greeter/generated.go 35-99 *)
Definition greeter_run : list cin -> shot -> res shot := shot_run port_name port_message (t_decode tr_string) (fun s => hello ++ s).
(** transport/wasmrs/cmd/fbp/host/main.go 29-44: a payload of the first component as input of the second *)
Definition forward (d m : bytes) : res (option cin) :=
  port <- decode_port m ;;
  if bytes_eqb (po_port port) port_value then
    m' <- encode_port {| po_port := port_name; po_data := po_data port; po_complete := po_complete port; po_next := po_next port |} ;;
    Ok (Some (GetNext d m'))
  else Ok None.
(** transport/wasmrs/cmd/fbp/host/main.go 77-91: what the host sends to the first component *)
Definition concat_input (g : bytes * bytes) : res cin :=
  d <- to_bytes (tab_encode strings_table (Some g)) (tab_encode strings_table (Some g)) ;;
  m <- encode_port {| po_port := port_strings; po_data := []; po_complete := true; po_next := true |} ;;
  Ok (GetNext d m).
