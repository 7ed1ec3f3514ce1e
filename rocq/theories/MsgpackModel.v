(** Model of /repo/msgpack: data_reader.go, encoder.go, decoder.go, sizer.go,
    codec.go and utils.go.  Signed integers are [Z], unsigned integers and
    floats (by their bit pattern) are [N].  Strings are their bytes;
    [UnsafeString]/[UnsafeBytes] share memory with the buffer, which is not
    visible in this model (buffers are not modified while read). *)
From Verif Require Import Base.

(** Conversions between signed and unsigned integers of [k] bytes.  msgpack/data_reader.go 167-201 *)
Definition to_u (k : nat) (z : Z) : N := Z.to_N (z mod 256 ^ Z.of_nat k).
(** msgpack/data_reader.go 75-109 *)
Definition of_u (k : nat) (n : N) : Z :=
  let m := (256 ^ Z.of_nat k)%Z in
  if (2 * Z.of_N n <? m)%Z then Z.of_N n else (Z.of_N n - m)%Z.

(** ** data_reader.go *)
(** msgpack/data_reader.go 11-15 *)
Record reader := { dr_buf : bytes; dr_off : N; dr_err : option string }.
(** msgpack/data_reader.go 17-21 *)
Definition new_reader (b : bytes) : reader := {| dr_buf := b; dr_off := 0; dr_err := None |}.
(** msgpack/data_reader.go 23-30 *)
Definition at_off (o : N) (r : reader) : reader := {| dr_buf := dr_buf r; dr_off := o; dr_err := dr_err r |}.
(** msgpack/data_reader.go 9 *)
Definition err_range : string := "range error".
(** [checkBufferSize], msgpack/data_reader.go 239-249; the sum is a uint32. *)
Definition check (n : N) (r : reader) : res unit * reader :=
  match dr_err r with
  | Some e => (Err e, r)
  | None =>
      if u32 (len (dr_buf r)) <? u32 (dr_off r + n)
      then (Err err_range, {| dr_buf := dr_buf r; dr_off := dr_off r; dr_err := Some err_range |})
      else (Ok tt, r)
  end.

(** Reads.  A read returns its result and the reader afterwards.  msgpack/data_reader.go 23-145 *)
Definition rd (A : Type) := reader -> res A * reader.
(** msgpack/data_reader.go 23-145 *)
Definition rbind {A B} (m : rd A) (k : A -> rd B) : rd B := fun r =>
  match m r with
  | (Ok a, r1) => k a r1
  | (Err e, r1) => (Err e, r1)
  | (Panic, r1) => (Panic, r1)
  end.
(** msgpack/data_reader.go 23-145 *)
Definition rret {A} (a : A) : rd A := fun r => (Ok a, r).
(** msgpack/data_reader.go 23-145 *)
Definition rerr {A} (e : string) : rd A := fun r => (Err e, r).
Notation "x <~ m ;; k" := (rbind m (fun x => k)) (at level 60, m at next level, right associativity).

(** [GetBytes], msgpack/data_reader.go 23-30: slicing panics when the (wrapped) end is below the start. *)
Definition get_bytes (n : N) : rd bytes := fun r =>
  match check n r with
  | (Ok _, r1) =>
      let e := u32 (dr_off r1 + n) in
      if (dr_off r1 <=? e) && (e <=? len (dr_buf r1))
      then (Ok (takeN n (dropN (dr_off r1) (dr_buf r1))), at_off e r1)
      else (Panic, r1)
  | (Err e, r1) => (Err e, r1)
  | (Panic, r1) => (Panic, r1)
  end.
(** [PeekUint8], msgpack/data_reader.go 42-47 *)
Definition peek_u8 : rd N := fun r =>
  match check 1 r with
  | (Ok _, r1) => match dropN (dr_off r1) (dr_buf r1) with b :: _ => (Ok b, r1) | [] => (Panic, r1) end
  | (Err e, r1) => (Err e, r1)
  | (Panic, r1) => (Panic, r1)
  end.
(** [Discard], msgpack/data_reader.go 49-55 *)
Definition discard (n : N) : rd unit := fun r =>
  match check n r with
  | (Ok _, r1) => (Ok tt, at_off (u32 (dr_off r1 + n)) r1)
  | (Err e, r1) => (Err e, r1)
  | (Panic, r1) => (Panic, r1)
  end.
(** [GetUint8/16/32/64] (111-145), [GetFloat32/64] (msgpack/data_reader.go 57-73, by bit pattern);
    [k] is the number of bytes. *)
Definition get_u (k : nat) : rd N := fun r =>
  match check (N.of_nat k) r with
  | (Ok _, r1) =>
      match get_be k (dropN (dr_off r1) (dr_buf r1)) with
      | Ok (v, _) => (Ok v, at_off (u32 (dr_off r1 + N.of_nat k)) r1)
      | _ => (Panic, r1)
      end
  | (Err e, r1) => (Err e, r1)
  | (Panic, r1) => (Panic, r1)
  end.
(** [GetInt8/16/32/64], msgpack/data_reader.go 75-109 *)
Definition get_i (k : nat) : rd Z := n <~ get_u k ;; rret (of_u k n).

(** Writes.  Every [Set...] returns an error that the encoder ignores; it is
    also kept in the reader.  [copy] into [dr_buf] at the offset.  msgpack/data_reader.go 32-40 *)
Definition overwrite (o : N) (src buf : bytes) : bytes :=
  takeN o buf ++ takeN (len buf - o) src ++ dropN (o + len src) buf.
(** [SetBytes], msgpack/data_reader.go 32-40 *)
Definition set_bytes (src : bytes) (r : reader) : res reader :=
  let n := u32 (len src) in
  match check n r with
  | (Ok _, r1) =>
      if dr_off r1 <=? len (dr_buf r1)
      then Ok {| dr_buf := overwrite (dr_off r1) src (dr_buf r1); dr_off := u32 (dr_off r1 + n); dr_err := dr_err r1 |}
      else Panic
  | (_, r1) => Ok r1
  end.
(** [SetUint8/16/32/64] (203-237), [SetFloat32/64] (msgpack/data_reader.go 147-165): [k] bytes. *)
Definition set_u (k : nat) (v : N) (r : reader) : res reader :=
  match check (N.of_nat k) r with
  | (Ok _, r1) =>
      if dr_off r1 + N.of_nat k <=? len (dr_buf r1)
      then Ok {| dr_buf := overwrite (dr_off r1) (be k v) (dr_buf r1);
                 dr_off := u32 (dr_off r1 + N.of_nat k); dr_err := dr_err r1 |}
      else Panic
  | (_, r1) => Ok r1
  end.
(** [SetInt8/16/32/64], msgpack/data_reader.go 167-201 *)
Definition set_i (k : nat) (z : Z) (r : reader) : res reader := set_u k (to_u k z) r.

(** ** encoder.go *)
(** msgpack/encoder.go 22-315 *)
Definition wr := reader -> res reader.
(** msgpack/encoder.go 22-315 *)
Definition seqw (a b : wr) : wr := fun r => r1 <- a r ;; b r1.
Notation "a ;;; b" := (seqw a b) (at level 61, right associativity).

(** msgpack/encoder.go 22-24 *)
Definition enc_nil : wr := set_u 1 192.
(** msgpack/encoder.go 26-32 *)
Definition enc_bool (b : bool) : wr := if b then set_u 1 195 else set_u 1 194.
(** [WriteInt64], msgpack/encoder.go 78-96; [WriteInt8/16/32] (42-76) call it with the value widened. *)
Definition enc_int (v : Z) : wr :=
  if (0 <=? v)%Z && (v <? 128)%Z then set_u 1 (to_u 1 v)
  else if (v <? 0)%Z && (-32 <=? v)%Z then set_u 1 (N.lor (to_u 1 v) 224)
  else if (v <=? 127)%Z && (-128 <=? v)%Z then set_u 1 208 ;;; set_i 1 v
  else if (v <=? 32767)%Z && (-32768 <=? v)%Z then set_u 1 209 ;;; set_i 2 v
  else if (v <=? 2147483647)%Z && (-2147483648 <=? v)%Z then set_u 1 210 ;;; set_i 4 v
  else set_u 1 211 ;;; set_i 8 v.
(** [WriteUint64], msgpack/encoder.go 142-158; [WriteUint8/16/32] (106-140) call it. *)
Definition enc_uint (v : N) : wr :=
  if v <? 128 then set_u 1 (u8 v)
  else if v <=? 255 then set_u 1 204 ;;; set_u 1 (u8 v)
  else if v <=? 65535 then set_u 1 205 ;;; set_u 2 (u16 v)
  else if v <=? 4294967295 then set_u 1 206 ;;; set_u 4 (u32 v)
  else set_u 1 207 ;;; set_u 8 v.
(** msgpack/encoder.go 168-171, 181-184 *)
Definition enc_f32 (bits : N) : wr := set_u 1 202 ;;; set_u 4 bits.
(** msgpack/encoder.go 181-184 *)
Definition enc_f64 (bits : N) : wr := set_u 1 203 ;;; set_u 8 bits.
(** msgpack/encoder.go 194-207 *)
Definition enc_str_len (n : N) : wr :=
  if n <? 32 then set_u 1 (N.lor (u8 n) 160)
  else if n <=? 255 then set_u 1 217 ;;; set_u 1 (u8 n)
  else if n <=? 65535 then set_u 1 218 ;;; set_u 2 (u16 n)
  else set_u 1 219 ;;; set_u 4 n.
(** msgpack/encoder.go 209-213 *)
Definition enc_str (s : bytes) : wr := enc_str_len (u32 (len s)) ;;; set_bytes s.
(** [encodeTime], msgpack/encoder.go 239-259.  An instant is its [Unix()] seconds (an int64) and
    [Nanosecond()]. *)
Definition enc_time_body (sec : Z) (nsec : N) : bytes :=
  let secs := to_u 8 sec in
  if N.shiftr secs 34 =? 0 then
    let data := N.lor (u64 (N.shiftl nsec 34)) secs in
    if N.land data 18446744069414584320 =? 0 then be 4 (u32 data) else be 8 data
  else be 4 (u32 nsec) ++ be 8 secs.
(** [encodeExtLen], [write1], [write2], [write4], msgpack/encoder.go 524-569 *)
Definition enc_ext_len (l : N) : wr :=
  if l =? 1 then set_u 1 212
  else if l =? 2 then set_u 1 213
  else if l =? 4 then set_u 1 214
  else if l =? 8 then set_u 1 215
  else if l =? 16 then set_u 1 216
  else if l <=? 255 then set_bytes [199; u8 l]
  else if l <=? 65535 then set_bytes (200 :: be 2 (u16 l))
  else set_bytes (201 :: be 4 (u32 l)).
(** msgpack/encoder.go 223-229 *)
Definition enc_time (sec : Z) (nsec : N) : wr :=
  let b := enc_time_body sec nsec in
  enc_ext_len (len b) ;;; set_i 1 (-1)%Z ;;; set_bytes b.
(** msgpack/encoder.go 261-272 *)
Definition enc_bin_len (n : N) : wr :=
  if n <=? 255 then set_u 1 196 ;;; set_u 1 (u8 n)
  else if n <=? 65535 then set_u 1 197 ;;; set_u 2 (u16 n)
  else set_u 1 198 ;;; set_u 4 n.
(** msgpack/encoder.go 274-283 *)
Definition enc_bin (s : bytes) : wr :=
  let n := u32 (len s) in
  if n =? 0 then set_u 1 196 ;;; set_u 1 0
  else enc_bin_len n ;;; set_bytes s.
(** msgpack/encoder.go 293-303 *)
Definition enc_arr (n : N) : wr :=
  if n <? 16 then set_u 1 (N.lor (u8 n) 144)
  else if n <=? 65535 then set_u 1 220 ;;; set_u 2 (u16 n)
  else set_u 1 221 ;;; set_u 4 n.
(** msgpack/encoder.go 305-315 *)
Definition enc_map (n : N) : wr :=
  if n <? 16 then set_u 1 (N.lor (u8 n) 128)
  else if n <=? 65535 then set_u 1 222 ;;; set_u 2 (u16 n)
  else set_u 1 223 ;;; set_u 4 n.
(** [WriteNillable...], msgpack/encoder.go 34-40, 46-52, ..., 285-291: a nil pointer (or slice) is
    written as nil, anything else with the plain method. *)
Definition nillable {A B} (nil : B) (f : A -> B) (v : option A) : B :=
  match v with None => nil | Some x => f x end.

(** The methods of [Writer] other than [WriteAny] (msgpack/interfaces.go 46-80).  The
    integer methods of all widths are [PInt]/[PUint]. *)
Inductive prim :=
| PNil | PBool (b : bool) | PInt (z : Z) | PUint (n : N) | PF32 (bits : N) | PF64 (bits : N)
| PStr (s : bytes) | PBin (s : bytes) | PTime (sec : Z) (nsec : N) | PArr (n : N) | PMap (n : N).
(** msgpack/encoder.go 22-315 *)
Definition enc_prim (p : prim) : wr :=
  match p with
  | PNil => enc_nil | PBool b => enc_bool b | PInt z => enc_int z | PUint n => enc_uint n
  | PF32 x => enc_f32 x | PF64 x => enc_f64 x | PStr s => enc_str s | PBin s => enc_bin s
  | PTime s n => enc_time s n | PArr n => enc_arr n | PMap n => enc_map n
  end.

(** Dynamically typed values, as distinguished by [WriteAny] (msgpack/encoder.go 317-522) and
    produced by [ReadAny].  Integer types carry their size in bytes (0 for
    [int]/[uint]).  A typed slice such as []string makes the same calls as
    []any holding its elements (356-428) and is identified with it, likewise
    maps (430-520); a map is listed in the order in which it is iterated.
    [ACodec] is a value whose [Encode] makes the given calls on the writer
    ([inr] is a call of [WriteAny]).  [AOther] is a value of any other type. *)
Inductive any :=
| ANil | ABool (b : bool) | AInt (w : nat) (z : Z) | AUint (w : nat) (n : N)
| AF32 (bits : N) | AF64 (bits : N) | AStr (s : bytes) | ABin (s : bytes)
| ATime (sec : Z) (nsec : N) | ATimes (l : list (Z * N))
| AList (l : list any) | AMap (l : list (any * any)) | ACodec (l : list (prim + any)) | AOther.
(** msgpack/encoder.go 317-522 *)
Definition wcall := (prim + any)%type.

(** msgpack/encoder.go 356-520 *)
Definition seq_all {A} (f : A -> wr) : list A -> wr :=
  fix go l := match l with [] => fun r => Ok r | x :: l' => f x ;;; go l' end.

(** [WriteAny], msgpack/encoder.go 317-522: nil is written twice (318-323); time.Time and
    []time.Time are not listed. *)
Fixpoint enc_any (a : any) : wr :=
  match a with
  | ANil => enc_nil ;;; enc_nil
  | ABool b => enc_bool b
  | AInt _ z => enc_int z
  | AUint _ n => enc_uint n
  | AF32 x => enc_f32 x
  | AF64 x => enc_f64 x
  | AStr s => enc_str s
  | ABin s => enc_bin s
  | AList l => enc_arr (u32 (len l)) ;;; seq_all enc_any l
  | AMap l => enc_map (u32 (len l)) ;;; seq_all (fun kv => enc_any (fst kv) ;;; enc_any (snd kv)) l
  | ACodec l => seq_all (fun c => match c with inl p => enc_prim p | inr v => enc_any v end) l
  | ATime _ _ | ATimes _ | AOther => fun r => Ok r
  end.
(** msgpack/encoder.go 22-522 *)
Definition enc_call (c : wcall) : wr := match c with inl p => enc_prim p | inr a => enc_any a end.

(** ** sizer.go: the length is a uint32.  Every method is given by the amount
    it adds to the length. *)
(** msgpack/sizer.go 23-494 *)
Definition plus (a b : N) : N := u32 (a + b).
(** msgpack/sizer.go 42-52 *)
Definition siz_str_len (n : N) : N := if n <? 32 then 1 else if n <=? 255 then 2 else if n <=? 65535 then 3 else 5.
(** msgpack/sizer.go 27-32 *)
Definition siz_str (s : bytes) : N := let n := u32 (len s) in plus (siz_str_len n) n.
(** msgpack/sizer.go 60-73 *)
Definition siz_time_body (sec : Z) (nsec : N) : N :=
  let secs := to_u 8 sec in
  if N.shiftr secs 34 =? 0 then
    let data := N.lor (u64 (N.shiftl nsec 34)) secs in
    if N.land data 18446744069414584320 =? 0 then 4 else 8
  else 12.
(** msgpack/sizer.go 75-88 *)
Definition siz_ext_len (l : N) : N :=
  if (l =? 1) || (l =? 2) || (l =? 4) || (l =? 8) || (l =? 16) then 1
  else if l <=? 255 then 2 else if l <=? 65535 then 3 else 5.
(** msgpack/sizer.go 54-58 *)
Definition siz_time (sec : Z) (nsec : N) : N :=
  let l := siz_time_body sec nsec in plus (siz_ext_len l) (1 + l).
(** msgpack/sizer.go 110-118, 148-156 *)
Definition siz_arr (n : N) : N := if n <? 16 then 1 else if n <=? 65535 then 3 else 5.
(** msgpack/sizer.go 148-156 *)
Definition siz_map (n : N) : N := if n <? 16 then 1 else if n <=? 65535 then 3 else 5.
(** msgpack/sizer.go 120-128 *)
Definition siz_bin_len (n : N) : N := if n <? 255 then 1 else if n <=? 65535 then 2 else 4.
(** msgpack/sizer.go 130-138 *)
Definition siz_bin (s : bytes) : N :=
  let n := u32 (len s) in if n =? 0 then 2 else plus (siz_bin_len n) (n + 1).
(** msgpack/sizer.go 188-200 *)
Definition siz_int (v : Z) : N :=
  if (-32 <=? v)%Z && (v <? 128)%Z then 1
  else if (v <? 128)%Z && (-128 <=? v)%Z then 2
  else if (v <? 32768)%Z && (-32768 <=? v)%Z then 3
  else if (v <? 2147483648)%Z && (-2147483648 <=? v)%Z then 5
  else 9.
(** msgpack/sizer.go 239-251 *)
Definition siz_uint (v : N) : N :=
  if v <? 128 then 1 else if v <? 256 then 2 else if v <? 65536 then 3 else if v <? 4294967296 then 5 else 9.
(** 23-25, 98-100, 260-262, 270-272 and the above; msgpack/sizer.go 23-272 *)
Definition siz_prim (p : prim) : N :=
  match p with
  | PNil => 1 | PBool _ => 1 | PInt z => siz_int z | PUint n => siz_uint n | PF32 _ => 5 | PF64 _ => 9
  | PStr s => siz_str s | PBin s => siz_bin s | PTime s n => siz_time s n
  | PArr n => siz_arr n | PMap n => siz_map n
  end.
(** Added up in uint32, one addition after the other.  msgpack/sizer.go 281-494 *)
Definition sum32 (l : list N) : N := fold_left plus l 0.
(** [WriteAny], msgpack/sizer.go 281-494 *)
Fixpoint siz_any (a : any) : N :=
  match a with
  | ANil => 2
  | ABool _ => 1
  | AInt _ z => siz_int z
  | AUint _ n => siz_uint n
  | AF32 _ => 5
  | AF64 _ => 9
  | AStr s => siz_str s
  | ABin s => siz_bin s
  | ATime s n => siz_time s n
  | ATimes l => plus (siz_arr (u32 (len l))) (sum32 (map (fun t => siz_time (fst t) (snd t)) l))
  | AList l => plus (siz_arr (u32 (len l))) (sum32 (map siz_any l))
  | AMap l => plus (siz_map (u32 (len l))) (sum32 (map (fun kv => plus (siz_any (fst kv)) (siz_any (snd kv))) l))
  | ACodec l => sum32 (map (fun c => match c with inl p => siz_prim p | inr v => siz_any v end) l)
  | AOther => 0
  end.
(** msgpack/sizer.go 23-494 *)
Definition siz_call (c : wcall) : N := match c with inl p => siz_prim p | inr a => siz_any a end.
(** The sizer after the calls [l], from length [s].  msgpack/sizer.go 23-494 *)
Definition siz_calls (l : list wcall) (s : N) : N := fold_left (fun s c => plus s (siz_call c)) l s.
(** msgpack/encoder.go 22-522 *)
Definition enc_calls (l : list wcall) : wr := seq_all enc_call l.

(** ** codec.go: size, allocate, encode.  The value is traversed twice, and maps
    are iterated in an unspecified order each time: [l] are the calls made on
    the sizer, [l'] those on the encoder.  [ToBytes] (17-28) for a codec whose
    [Encode] makes the given calls and returns nil, and likewise I8ToBytes ..
    TimeToBytes (46-184) with a single call. *)
(** msgpack/codec.go 17-28 *)
Definition to_bytes (l l' : list wcall) : res bytes :=
  r <- enc_calls l' (new_reader (repeat 0 (N.to_nat (siz_calls l 0)))) ;; Ok (dr_buf r).
(** [AnyToBytes] (msgpack/codec.go 31-44), [SliceToBytes] and [MapToBytes] (186-210), and
    [ToBytes] for a codec returning [Err()]: the error of the encoder is returned. *)
Definition to_bytes_checked (l l' : list wcall) : res bytes :=
  r <- enc_calls l' (new_reader (repeat 0 (N.to_nat (siz_calls l 0)))) ;;
  match dr_err r with Some e => Err e | None => Ok (dr_buf r) end.

(** ** decoder.go *)
(** 933-966; msgpack/decoder.go 934-936 *)
Definition is_fix_int (b : N) : bool := N.shiftr b 7 =? 0.
(** msgpack/decoder.go 939-941 *)
Definition is_neg_fix_int (b : N) : bool := N.land b 224 =? 224.
(** msgpack/decoder.go 944-946 *)
Definition is_fix_map (b : N) : bool := N.land b 240 =? 128.
(** msgpack/decoder.go 949-951 *)
Definition is_fix_arr (b : N) : bool := N.land b 240 =? 144.
(** msgpack/decoder.go 954-956 *)
Definition is_fix_str (b : N) : bool := N.land b 224 =? 160.
(** msgpack/decoder.go 958-966 *)
Definition is_string (b : N) : bool :=
  is_fix_str b || (b =? 217) || (b =? 218) || (b =? 219) || is_fix_arr b || (b =? 220) || (b =? 221).

(** msgpack/decoder.go 23-33 *)
Definition is_next_nil : rd bool :=
  p <~ peek_u8 ;;
  if p =? 192 then (fun r => let (_, r1) := discard 1 r in (Ok true, r1)) else rret false.
(** [ReadNillable...], msgpack/decoder.go 48-58, 75-85, ..., 522-528 *)
Definition read_nillable {A} (m : rd A) : rd (option A) :=
  n <~ is_next_nil ;;
  if n then rret None else v <~ m ;; rret (Some v).
(** msgpack/decoder.go 35-46 *)
Definition read_bool : rd bool :=
  p <~ get_u 1 ;;
  if p =? 195 then rret true else if p =? 194 then rret false else rerr "bad value for bool".
(** msgpack/decoder.go 141-166 *)
Definition read_int64 : rd Z :=
  p <~ get_u 1 ;;
  if is_fix_int p || is_neg_fix_int p then rret (of_u 1 p)
  else if p =? 208 then get_i 1
  else if p =? 209 then get_i 2
  else if p =? 210 then get_i 4
  else if p =? 211 then get_i 8
  else rerr "bad prefix for int64".
(** [ReadInt8/16/32], msgpack/decoder.go 60-139: [k] bytes.  The number in the message is left out. *)
Definition read_int (k : nat) : rd Z :=
  v <~ read_int64 ;;
  let m := (256 ^ Z.of_nat k)%Z in
  if (2 * v <? m)%Z && (- m <=? 2 * v)%Z then rret v else rerr "interger overflow".
(** msgpack/decoder.go 261-316 *)
Definition nonneg (m : rd Z) : rd N := v <~ m ;; if (v <? 0)%Z then rerr "bad prefix for uint" else rret (Z.to_N v).
(** msgpack/decoder.go 261-316 *)
Definition read_uint64 : rd N :=
  p <~ get_u 1 ;;
  if is_fix_int p then rret p
  else if is_neg_fix_int p then nonneg (rret (of_u 1 p))
  else if p =? 204 then get_u 1
  else if p =? 205 then get_u 2
  else if p =? 206 then get_u 4
  else if p =? 207 then get_u 8
  else if p =? 208 then nonneg (get_i 1)
  else if p =? 209 then nonneg (get_i 2)
  else if p =? 210 then nonneg (get_i 4)
  else if p =? 211 then nonneg (get_i 8)
  else rerr "bad prefix for uint".
(** [ReadUint8/16/32], msgpack/decoder.go 180-259 *)
Definition read_uint (k : nat) : rd N :=
  v <~ read_uint64 ;; if v <? 256 ^ N.of_nat k then rret v else rerr "interger overflow".
(** msgpack/decoder.go 330-343; [narrow] is Go's conversion float32(float64) on bit patterns. *)
Definition read_f32 (narrow : N -> N) : rd N :=
  p <~ get_u 1 ;;
  if p =? 202 then get_u 4
  else if p =? 203 then v <~ get_u 8 ;; rret (narrow v)
  else rerr "bad prefix for float32".
(** msgpack/decoder.go 357-367 *)
Definition read_f64 : rd N :=
  p <~ get_u 1 ;; if p =? 203 then get_u 8 else rerr "bad prefix for float64".
(** msgpack/decoder.go 472-497 *)
Definition read_str_len : rd N :=
  p <~ get_u 1 ;;
  if is_fix_str p then rret (N.land p 31)
  else if is_fix_arr p then rret (N.land p 15)
  else if p =? 217 then get_u 1
  else if (p =? 218) || (p =? 220) then get_u 2
  else if (p =? 219) || (p =? 221) then get_u 4
  else rerr "bad prefix for string length".
(** msgpack/decoder.go 455-458, 499-508 *)
Definition read_str : rd bytes := n <~ read_str_len ;; get_bytes n.
(** msgpack/decoder.go 530-553 *)
Definition read_bin_len : rd N :=
  p <~ get_u 1 ;;
  if is_fix_arr p then rret (N.land p 15)
  else if p =? 192 then rret 0
  else if p =? 196 then get_u 1
  else if p =? 197 then get_u 2
  else if p =? 198 then get_u 4
  else rerr "bad prefix for binary length".
(** msgpack/decoder.go 510-520 *)
Definition read_bin : rd bytes := n <~ read_bin_len ;; get_bytes n.
(** msgpack/decoder.go 555-573 *)
Definition read_arr : rd N :=
  p <~ get_u 1 ;;
  if is_fix_arr p then rret (N.land p 15)
  else if p =? 220 then get_u 2
  else if p =? 221 then get_u 4
  else if p =? 192 then rret 0
  else rerr "bad prefix for array length".
(** msgpack/decoder.go 575-593 *)
Definition read_map : rd N :=
  p <~ get_u 1 ;;
  if is_fix_map p then rret (N.land p 15)
  else if p =? 222 then get_u 2
  else if p =? 223 then get_u 4
  else if p =? 192 then rret 0
  else rerr "bad prefix for map length".
(** msgpack/decoder.go 879-903: the length of a variable extension is read as a MessagePack
    integer.  Messages without their number. *)
Definition parse_ext_len (c : N) : rd N :=
  if c =? 212 then rret 1 else if c =? 213 then rret 2 else if c =? 214 then rret 4
  else if c =? 215 then rret 8 else if c =? 216 then rret 16
  else if c =? 199 then read_uint 1
  else if c =? 200 then read_uint 2
  else if c =? 201 then read_uint 4
  else rerr "msgpack: invalid code decoding ext len".
(** time.Unix(sec, nsec) for nsec >= 0: normalised; int64 arithmetic.  msgpack/decoder.go 431-453 *)
Definition time_unix (sec : Z) (nsec : N) : Z * N :=
  (of_u 8 (to_u 8 (sec + Z.of_N (nsec / 1000000000))), nsec mod 1000000000).
(** msgpack/decoder.go 431-453 *)
Definition decode_time (n : N) : rd (Z * N) :=
  b <~ get_bytes n ;;
  if len b =? 4 then rret (time_unix (Z.of_N (unbe b)) 0)
  else if len b =? 8 then
    rret (time_unix (Z.of_N (N.land (unbe b) 17179869183)) (N.shiftr (unbe b) 34))
  else if len b =? 12 then
    rret (time_unix (of_u 8 (unbe (dropN 4 b))) (unbe (takeN 4 b)))
  else rerr "msgpack: invalid time ext len".
(** msgpack/decoder.go 395-416 after the discarded prefix [p] *)
Definition ext_time (p : N) : rd (Z * N) :=
  n <~ parse_ext_len p ;; c <~ get_u 1 ;;
  if (of_u 1 c =? -1)%Z || (of_u 1 c =? 13)%Z then decode_time n
  else rerr "msgpack: invalid time ext id".
(** [ReadTime], msgpack/decoder.go 381-417, with [extHeader] and [readCode] (857-877).  [parse] is
    time.Parse(time.RFC3339Nano, _).  The location of the result is not modelled. *)
Definition read_time (parse : bytes -> res (Z * N)) : rd (Z * N) :=
  p <~ peek_u8 ;;
  if is_string p then (s <~ read_str ;; fun r => (parse s, r))
  else (fun r => let (_, r1) := discard 1 r in ext_time p r1).

(** [getSize], msgpack/decoder.go 611-709: a failing [Discard] of a fixed size is ignored. *)
Definition discard_ignore (n : N) : rd N := fun r =>
  match discard n r with (Panic, r1) => (Panic, r1) | (_, r1) => (Ok 0, r1) end.
(** msgpack/decoder.go 611-709 *)
Definition get_size : rd N :=
  p <~ get_u 1 ;;
  if is_neg_fix_int p || is_fix_int p then rret 0
  else if is_fix_str p then discard_ignore (N.land p 31)
  else if is_fix_arr p then rret (N.land p 15)
  else if is_fix_map p then rret (2 * N.land p 15)
  else if (p =? 192) || (p =? 195) || (p =? 194) then rret 0
  else if (p =? 217) || (p =? 196) then n <~ get_u 1 ;; _ <~ discard n ;; rret 0
  else if (p =? 218) || (p =? 197) then n <~ get_u 2 ;; _ <~ discard n ;; rret 0
  else if (p =? 219) || (p =? 198) then n <~ get_u 4 ;; _ <~ discard n ;; rret 0
  else if p =? 202 then discard_ignore 4
  else if p =? 203 then discard_ignore 8
  else if (p =? 204) || (p =? 208) then discard_ignore 1
  else if (p =? 205) || (p =? 209) then discard_ignore 2
  else if (p =? 206) || (p =? 210) then discard_ignore 4
  else if (p =? 207) || (p =? 211) then discard_ignore 8
  else if p =? 212 then discard_ignore 1
  else if p =? 213 then discard_ignore 3
  else if p =? 214 then discard_ignore 5
  else if p =? 215 then discard_ignore 9
  else if p =? 216 then discard_ignore 17
  else if p =? 220 then get_u 2
  else if p =? 221 then get_u 4
  else if p =? 222 then n <~ get_u 2 ;; rret (2 * n)
  else if p =? 223 then n <~ get_u 4 ;; rret (u32 (2 * n))
  else rerr "bad prefix".
(** [Skip], msgpack/decoder.go 595-609: [skip_n fuel n] is the loop for [n] values; [None] when
    the fuel (number of iterations and recursion depth) runs out. *)
Fixpoint skip_n (fuel : nat) (n : N) (r : reader) : option (res unit * reader) :=
  match fuel with
  | O => None
  | S f =>
      if n =? 0 then Some (Ok tt, r)
      else match get_size r with
           | (Ok k, r1) =>
               match skip_n f k r1 with
               | Some (Ok _, r2) => skip_n f (n - 1) r2
               | o => o
               end
           | (Err e, r1) => Some (Err e, r1)
           | (Panic, r1) => Some (Panic, r1)
           end
  end.
(** msgpack/decoder.go 595-609 *)
Definition skip (fuel : nat) (r : reader) : option (res unit * reader) := skip_n fuel 1 r.

(** [ReadAny], 711-829, [readArray] (831-840), [readMap] (msgpack/decoder.go 842-855).  Map keys
    are compared as Go interface values: slices and maps as keys panic, NaN is
    different from itself, 0.0 equals -0.0.  The map is a list in order of
    first insertion.  [make] of the announced length is not modelled. *)
Definition f64_eq (a b : N) : bool :=
  let nan x := 18442240474082181120 <? N.land x 9223372036854775807 in
  let zero x := N.land x 9223372036854775807 =? 0 in
  negb (nan a) && negb (nan b) && ((a =? b) || (zero a && zero b)).
(** msgpack/decoder.go 842-855 *)
Definition f32_eq (a b : N) : bool :=
  let nan x := 2139095040 <? N.land x 2147483647 in
  let zero x := N.land x 2147483647 =? 0 in
  negb (nan a) && negb (nan b) && ((a =? b) || (zero a && zero b)).
(** msgpack/decoder.go 842-855 *)
Fixpoint bytes_eqb (a b : bytes) : bool :=
  match a, b with
  | [], [] => true
  | x :: a', y :: b' => (x =? y) && bytes_eqb a' b'
  | _, _ => false
  end.
(** msgpack/decoder.go 842-855 *)
Definition hashable (a : any) : bool :=
  match a with ABin _ | AList _ | AMap _ | ATimes _ => false | _ => true end.
(** msgpack/decoder.go 842-855 *)
Definition key_eq (a b : any) : bool :=
  match a, b with
  | ANil, ANil => true
  | ABool x, ABool y => Bool.eqb x y
  | AInt v x, AInt w y => Nat.eqb v w && Z.eqb x y
  | AUint v x, AUint w y => Nat.eqb v w && N.eqb x y
  | AF32 x, AF32 y => f32_eq x y
  | AF64 x, AF64 y => f64_eq x y
  | AStr x, AStr y => bytes_eqb x y
  | _, _ => false
  end.
(** msgpack/decoder.go 842-855 *)
Fixpoint map_put (k v : any) (m : list (any * any)) : list (any * any) :=
  match m with
  | [] => [(k, v)]
  | (k', v') :: m' => if key_eq k' k then (k', v) :: m' else (k', v') :: map_put k v m'
  end.
(** msgpack/decoder.go 711-855 *)
Definition orun {A B} (o : option (res A * reader)) (k : A -> reader -> option (res B * reader)) : option (res B * reader) :=
  match o with
  | None => None
  | Some (Ok a, r) => k a r
  | Some (Err e, r) => Some (Err e, r)
  | Some (Panic, r) => Some (Panic, r)
  end.
(** The cases of [ReadAny]; [arr] and [mp] read an array or map of the given size.  msgpack/decoder.go 711-829 *)
Definition any_prefix (arr mp : N -> reader -> option (res any * reader)) (p : N) (r : reader) : option (res any * reader) :=
  let lift {A} (m : rd A) (c : A -> any) := Some ((x <~ m ;; rret (c x)) r) in
  if is_fix_int p || is_neg_fix_int p then Some (Ok (AInt 8 (of_u 1 p)), r)
  else if is_fix_str p then lift (get_bytes (N.land p 31)) AStr
  else if is_fix_arr p then arr (N.land p 15) r
  else if is_fix_map p then mp (N.land p 15) r
  else if p =? 192 then Some (Ok ANil, r)
  else if p =? 195 then Some (Ok (ABool true), r)
  else if p =? 194 then Some (Ok (ABool false), r)
  else if p =? 208 then lift (get_i 1) (AInt 1)
  else if p =? 209 then lift (get_i 2) (AInt 2)
  else if p =? 210 then lift (get_i 4) (AInt 4)
  else if p =? 211 then lift (get_i 8) (AInt 8)
  else if p =? 204 then lift (get_u 1) (AUint 1)
  else if p =? 205 then lift (get_u 2) (AUint 2)
  else if p =? 206 then lift (get_u 4) (AUint 4)
  else if p =? 207 then lift (get_u 8) (AUint 8)
  else if p =? 202 then lift (get_u 4) AF32
  else if p =? 203 then lift (get_u 8) AF64
  else if p =? 217 then lift (n <~ get_u 1 ;; get_bytes n) AStr
  else if p =? 218 then lift (n <~ get_u 2 ;; get_bytes n) AStr
  else if p =? 219 then lift (n <~ get_u 4 ;; get_bytes n) AStr
  else if p =? 220 then orun (Some (get_u 2 r)) arr
  else if p =? 221 then orun (Some (get_u 4 r)) arr
  else if p =? 222 then orun (Some (get_u 2 r)) mp
  else if p =? 223 then orun (Some (get_u 4 r)) mp
  else if p =? 196 then lift (n <~ get_u 1 ;; get_bytes n) ABin
  else if p =? 197 then lift (n <~ get_u 2 ;; get_bytes n) ABin
  else if p =? 198 then lift (n <~ get_u 4 ;; get_bytes n) ABin
  else Some (Err "bad value for bool", r).
(** msgpack/decoder.go 711-855 *)
Fixpoint read_any (fuel : nat) (r : reader) : option (res any * reader) :=
  match fuel with
  | O => None
  | S f =>
      orun (Some (get_u 1 r))
        (any_prefix (fun n r => orun (read_list f n r) (fun l r => Some (Ok (AList l), r)))
                    (fun n r => orun (read_pairs f n [] r) (fun l r => Some (Ok (AMap l), r))))
  end
with read_list (fuel : nat) (n : N) (r : reader) : option (res (list any) * reader) :=
  match fuel with
  | O => None
  | S f =>
      if n =? 0 then Some (Ok [], r)
      else orun (read_any f r) (fun v r => orun (read_list f (n - 1) r) (fun l r => Some (Ok (v :: l), r)))
  end
with read_pairs (fuel : nat) (n : N) (m : list (any * any)) (r : reader) : option (res (list (any * any)) * reader) :=
  match fuel with
  | O => None
  | S f =>
      if n =? 0 then Some (Ok m, r)
      else orun (read_any f r) (fun k r =>
           orun (read_any f r) (fun v r =>
           if hashable k then read_pairs f (n - 1) (map_put k v m) r else Some (Panic, r)))
  end.

(** ** utils.go.  The loops count down a uint32. *)
(** [ReadSlice], msgpack/utils.go 16-32; [fuel] bounds the number of elements. *)
Fixpoint read_elems {A} (elem : rd A) (fuel : nat) (n : N) (r : reader) : option (res (list A) * reader) :=
  match fuel with
  | O => None
  | S f =>
      if n =? 0 then Some (Ok [], r)
      else orun (Some (elem r)) (fun v r => orun (read_elems elem f (n - 1) r) (fun l r => Some (Ok (v :: l), r)))
  end.
(** msgpack/utils.go 16-32 *)
Definition read_slice {A} (elem : rd A) (fuel : nat) (r : reader) : option (res (list A) * reader) :=
  orun (Some (read_arr r)) (fun n r => read_elems elem fuel n r).
(** [WriteSlice], msgpack/utils.go 7-14 *)
Definition enc_slice {A} (elem : A -> wr) (l : list A) : wr := enc_arr (u32 (len l)) ;;; seq_all elem l.
(** [ReadMap], msgpack/utils.go 46-68: the result as the list of assignments [m[key] = value] in order. *)
Definition read_pair {K V} (key : rd K) (val : rd V) : rd (K * V) := k <~ key ;; v <~ val ;; rret (k, v).
(** msgpack/utils.go 46-68 *)
Definition read_map_of {K V} (key : rd K) (val : rd V) (fuel : nat) (r : reader) : option (res (list (K * V)) * reader) :=
  orun (Some (read_map r)) (fun n r => read_elems (read_pair key val) fuel n r).
(** [WriteMap], msgpack/utils.go 34-44, for the entries in iteration order. *)
Definition enc_map_of {K V} (key : K -> wr) (val : V -> wr) (l : list (K * V)) : wr :=
  enc_map (u32 (len l)) ;;; seq_all (fun kv => key (fst kv) ;;; val (snd kv)) l.
