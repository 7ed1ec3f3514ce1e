(** Model of /repo/transform/transform.go: the conversion of values to and from
    the data of a payload.  [res bytes] stands for the payload with that data
    and no metadata.  The functions from mono to flux and back (500-538) are in
    AdapterModel.v.  [Any] (281-294) calls AnyToBytes and ReadAny, which are
    [to_bytes_checked] and [read_any] of MsgpackModel.v; [CodecEncode] and
    [CodecDecode] (310-333) are [to_bytes] for a codec whose error is ignored,
    and the Decode of that codec. *)
From Verif Require Import Base MsgpackModel InvokeModel.

(** [Transform], transform/transform.go 16-19 *)
Record transform (T : Type) := { t_decode : bytes -> res T; t_encode : T -> res bytes }.
Arguments t_decode {T} _ _.
Arguments t_encode {T} _ _.
Arguments Build_transform {T} _ _.
(** The bodies common to all transforms: a new decoder over the data, one read
    (the decoder is dropped, so what follows the value is ignored), e.g. transform/transform.go 22-26;
    a sizer, a buffer of its length, an encoder, one write, e.g. 27-34.  Errors
    of the encoder are not looked at. *)
Definition read_one {A} (d : rd A) (data : bytes) : res A := fst (d (new_reader data)).
(** transform/transform.go 27-34 *)
Definition write_one (p : prim) : res bytes := to_bytes [inl p] [inl p].

(** [String], transform/transform.go 21-35, and [StringDecode]/[StringEncode], 410-423 *)
Definition tr_string : transform bytes := Build_transform (read_one read_str) (fun s => write_one (PStr s)).
(** Go's conversion of an integer to a signed (unsigned) type of [w] bytes.  transform/transform.go 37-51 *)
Definition cast_i (w : nat) (z : Z) : Z := of_u w (to_u w z).
(** transform/transform.go 117-131 *)
Definition cast_u (w : nat) (n : N) : N := n mod 256 ^ N.of_nat w.
(** [Int], transform/transform.go 37-51, where int has [w] bytes: 8 on the host, 4 in WebAssembly. *)
Definition tr_int (w : nat) : transform Z :=
  Build_transform (fun d => v <- read_one read_int64 d ;; Ok (cast_i w v)) (fun z => write_one (PInt z)).
(** [Int64], transform/transform.go 53-67, and [Int64Decode]/[Int64Encode], 350-363 *)
Definition tr_int64 : transform Z := Build_transform (read_one read_int64) (fun z => write_one (PInt z)).
(** [Int32], [Int16], [Int8], transform/transform.go 69-115, with [k] bytes, and [Int32Decode]/[Int32Encode], 335-348 *)
Definition tr_intk (k : nat) : transform Z := Build_transform (read_one (read_int k)) (fun z => write_one (PInt z)).
(** [Uint], transform/transform.go 117-131, with [w] as for [Int] *)
Definition tr_uint (w : nat) : transform N :=
  Build_transform (fun d => v <- read_one read_uint64 d ;; Ok (cast_u w v)) (fun n => write_one (PUint n)).
(** [Uint64], transform/transform.go 133-147, and [Uint64Decode]/[Uint64Encode], 365-378 *)
Definition tr_uint64 : transform N := Build_transform (read_one read_uint64) (fun n => write_one (PUint n)).
(** [Uint32], [Uint16], [Uint8], transform/transform.go 149-195, with [k] bytes *)
Definition tr_uintk (k : nat) : transform N := Build_transform (read_one (read_uint k)) (fun n => write_one (PUint n)).
(** [Float64], transform/transform.go 197-211, [Float32], 213-227, on bit patterns, and 380-408 *)
Definition tr_f64 : transform N := Build_transform (read_one read_f64) (fun x => write_one (PF64 x)).
(** transform/transform.go 213-227 *)
Definition tr_f32 (narrow : N -> N) : transform N := Build_transform (read_one (read_f32 narrow)) (fun x => write_one (PF32 x)).
(** [Bytes], transform/transform.go 229-243; nil is not told from empty. *)
Definition tr_bytes : transform bytes := Build_transform (read_one read_bin) (fun s => write_one (PBin s)).
(** [Bool], transform/transform.go 245-259 *)
Definition tr_bool : transform bool := Build_transform (read_one read_bool) (fun b => write_one (PBool b)).
(** [ToStringDecode] and [ToStringEncode], transform/transform.go 425-440, for arbitrary [f] *)
Definition tr_to_string {T} (parse : bytes -> res T) (format : T -> bytes) : transform T :=
  Build_transform (fun d => s <- read_one read_str d ;; parse s) (fun v => write_one (PStr (format v))).
(** [Time], transform/transform.go 261-279: the text of the time; [parse] and [format] are
    time.Parse(time.RFC3339Nano, _) and Format(time.RFC3339Nano). *)
Definition tr_time {T} (parse : bytes -> res T) (format : T -> bytes) : transform T := tr_to_string parse format.
(** [Void], transform/transform.go 296-303 *)
Definition tr_void : transform unit := Build_transform (fun _ => Ok tt) (fun _ => Ok []).

(** [SliceEncode], transform/transform.go 449-463; [vs] and [ve] are the calls [valF] makes for an
    element on the sizer and on the encoder. *)
Definition slice_calls {V} (v : V -> list wcall) (l : list V) : list wcall := inl (PArr (u32 (len l))) :: flat_map v l.
(** transform/transform.go 449-463 *)
Definition slice_encode {V} (vs ve : V -> list wcall) (l : list V) : res bytes :=
  to_bytes_checked (slice_calls vs l) (slice_calls ve l).
(** [SliceDecode], transform/transform.go 442-447 *)
Definition slice_decode {V} (d : rd V) (fuel : nat) (data : bytes) : option (res (list V)) :=
  option_map fst (read_slice d fuel (new_reader data)).
(** [MapEncode], transform/transform.go 472-486: [m] and [m'] are the entries as iterated by the sizer
    and by the encoder.  [MapDecode], 465-470: the result as the list of
    assignments. *)
Definition map_calls {K V} (k : K -> list wcall) (v : V -> list wcall) (m : list (K * V)) : list wcall :=
  inl (PMap (u32 (len m))) :: flat_map (fun kv => k (fst kv) ++ v (snd kv)) m.
(** transform/transform.go 472-486 *)
Definition map_encode {K V} (ks ke : K -> list wcall) (vs ve : V -> list wcall) (m m' : list (K * V)) : res bytes :=
  to_bytes_checked (map_calls ks vs m) (map_calls ke ve m').
(** transform/transform.go 465-470 *)
Definition map_decode {K V} (dk : rd K) (dv : rd V) (fuel : nat) (data : bytes) : option (res (list (K * V))) :=
  option_map fst (read_map_of dk dv fuel (new_reader data)).
(** [InterfaceEncode], transform/transform.go 488-498: the handle of the tracker, here the address [a]
    the allocator returns. *)
Definition interface_encode (calls : list inst_call) (a x : N) : list inst_call * res bytes :=
  (calls ++ [IPut a x],
   match snd (inst_step (fst (inst_run [] calls)) (IPut a x)) with
   | RHandle h => write_one (PUint h)
   | _ => Panic
   end).
