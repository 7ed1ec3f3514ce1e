(** Model of /repo/msgpack/convert/convert.go, the helpers generated code wraps
    around reads and writes of optional and renamed values, and of
    /repo/msgpack/decoder.go 909-928 ([Decode], [DecodeNillable]). *)
From Verif Require Import Base MsgpackModel.

(** A Go result: a value and an error, nil being [None].  msgpack/convert/convert.go 20-27 *)
Definition gores (A : Type) := (A * option string)%type.
(** What [d] returns, as the arguments of a helper; [None] is a panic.  A read
    that fails returns [zero] (a nil pointer for ReadNillable...).  msgpack/convert/convert.go 9-104 *)
Definition as_two {A} (zero : A) (x : res A) : option (gores A) :=
  match x with Ok v => Some (v, None) | Err e => Some (zero, Some e) | Panic => None end.
(** [Format], msgpack/convert/convert.go 9-18; [TimeToStringPtr], 61-67 *)
Definition conv_format {T} (fn : T -> bytes) (v : option T) : option bytes :=
  match v with None => None | Some x => Some (fn x) end.
(** [Parse], msgpack/convert/convert.go 20-27; [StringToTime], 42-47.  A failed [fn] is [inr]. *)
Definition conv_parse {I T} (zero : T) (fn : I -> T + string) (x : gores I) : gores T :=
  match snd x with
  | Some e => (zero, Some e)
  | None => match fn (fst x) with inl t => (t, None) | inr e => (zero, Some e) end
  end.
(** [NillableParse], msgpack/convert/convert.go 29-40 *)
Definition conv_nillable_parse {I T} (fn : I -> T + string) (x : gores (option I)) : gores (option T) :=
  match snd x, fst x with
  | None, Some v => match fn v with inl t => (Some t, None) | inr e => (None, Some e) end
  | e, _ => (None, e)
  end.
(** [StringToTimePtr], msgpack/convert/convert.go 49-55: the pointer is set even when [fn] fails *)
Definition conv_time_ptr {I T} (zero : T) (fn : I -> T + string) (x : gores (option I)) : gores (option T) :=
  match snd x, fst x with
  | None, Some v => match fn v with inl t => (Some t, None) | inr e => (Some zero, Some e) end
  | e, _ => (None, e)
  end.
(** [String], [Bool], [Numeric], [ByteArray], msgpack/convert/convert.go 69-71, 78-80, 93-95, 102-104: the
    conversion [cast] and the error as it came *)
Definition conv_plain {I T} (cast : I -> T) (x : gores I) : gores T := (cast (fst x), snd x).
(** [NillableString], [NillableBool], [NillableNumeric], msgpack/convert/convert.go 73-76, 82-85, 97-100:
    [*value] of a nil pointer panics *)
Definition conv_nillable {I T} (cast : I -> T) (x : gores (option I)) : option (gores (option T)) :=
  match fst x with Some v => Some (Some (cast v), snd x) | None => None end.

(** [DecodeNillable], msgpack/decoder.go 918-928 *)
Definition decode_nillable {R} (decode : nat -> reader -> option (res R * reader)) (fuel : nat) (r : reader) : option (res (option R) * reader) :=
  orun (Some (is_next_nil r)) (fun n r => if n then Some (Ok None, r) else orun (decode fuel r) (fun g r => Some (Ok (Some g), r))).
