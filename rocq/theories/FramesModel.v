(** Model of /repo/internal/frames (codecs) and /repo/internal/u24.

    A Go [[]byte] buffer is a list.  Encoders write into an existing buffer:
    the model takes the old contents and returns the new contents (of the whole
    buffer), or [Panic].  Slicing beyond the length but within the capacity is
    always followed in this code by a slice that checks the length, so lengths
    decide (see [split_at] in Base.v). *)
From Verif Require Import Base.

(** ** Writer primitives *)

(** [PutUintX(payload, v); payload = payload[k:]] (or a byte store): panics
    if the buffer is too short.  internal/frames/request_n.go 33-38 *)
Definition put (bs : bytes) (k : bytes -> res bytes) (buf : bytes) : res bytes :=
  if len bs <=? len buf
  then r <- k (dropN (len bs) buf) ;; Ok (bs ++ r)
  else Panic.
(** [copy(payload, bs)]: copies the shorter of the two lengths.  internal/frames/error.go 36-43 *)
Definition copy_into (bs : bytes) (buf : bytes) : bytes :=
  takeN (len buf) bs ++ dropN (len bs) buf.
(** [copy(payload, bs); payload = payload[n:]].  internal/frames/payload.go 55-85 *)
Definition copy_adv (bs : bytes) (n : N) (k : bytes -> res bytes) (buf : bytes) : res bytes :=
  let b := copy_into bs buf in
  if n <=? len b then r <- k (dropN n b) ;; Ok (takeN n b ++ r) else Panic.
(** Final [copy(payload, f.Data)].  internal/frames/error.go 36-43 *)
Definition copy_end (bs : bytes) (buf : bytes) : res bytes := Ok (copy_into bs buf).

(** ** Frame types and flags: internal/frames/types.go 11-28, 94-104 *)
(** internal/frames/types.go 11-28 *)
Definition FrameTypeSetup := 1.
(** internal/frames/types.go 11-28 *)
Definition FrameTypeRequestResponse := 4.
(** internal/frames/types.go 11-28 *)
Definition FrameTypeRequestFNF := 5.
(** internal/frames/types.go 11-28 *)
Definition FrameTypeRequestStream := 6.
(** internal/frames/types.go 11-28 *)
Definition FrameTypeRequestChannel := 7.
(** internal/frames/types.go 11-28 *)
Definition FrameTypeRequestN := 8.
(** internal/frames/types.go 11-28 *)
Definition FrameTypeCancel := 9.
(** internal/frames/types.go 11-28 *)
Definition FrameTypePayload := 10.
(** internal/frames/types.go 11-28 *)
Definition FrameTypeError := 11.

(** internal/frames/types.go 94-104 *)
Definition FlagNext := 32.
(** internal/frames/types.go 94-104 *)
Definition FlagComplete := 64.
(** internal/frames/types.go 94-104 *)
Definition FlagFollow := 128.
(** internal/frames/types.go 94-104 *)
Definition FlagMetadata := 256.
(** internal/frames/types.go 94-104 *)
Definition FlagIgnore := 512.
(** internal/frames/types.go 94-104 *)
Definition FlagResume := FlagFollow.
(** internal/frames/types.go 94-104 *)
Definition FlagLease := FlagComplete.

(** internal/frames/types.go 107-109: [flag&f == flag]. *)
Definition flag_check (f flag : N) : bool := N.land flag f =? flag.

(** [if c { flags |= fl }]; internal/frames/payload.go 59-70 *)
Definition or_flag (c : bool) (fl flags : N) : N := if c then N.lor flags fl else flags.

(** ** Header: internal/frames/frame_header.go *)
(** internal/frames/frame_header.go 10-13 *)
Definition FrameHeaderLen := 6.

(** The two words written by [NewFrameHeader] internal/frames/frame_header.go 80-85 / [ResetFrameHeader]
    96-99: big-endian stream id, then [uint16(type)<<10|uint16(flags)]. *)
Definition header_bytes (sid ty fg : N) : bytes :=
  be 4 sid ++ be 2 (N.lor (u16 (N.shiftl ty 10)) fg).

(** [StreamID] internal/frames/frame_header.go 56-58, [Type] 61-63, [Flag] 66-68, [n] 75-77. *)
Definition h_stream_id (h : bytes) : N := N.land (unbe (takeN 4 h)) 2147483647.
(** internal/frames/frame_header.go 75-77 *)
Definition h_n (h : bytes) : N := unbe (takeN 2 (dropN 4 h)).
(** internal/frames/frame_header.go 61-63 *)
Definition h_type (h : bytes) : N := N.shiftr (N.land (h_n h) 64512) 10.
(** internal/frames/frame_header.go 66-68 *)
Definition h_flag (h : bytes) : N := N.land (h_n h) 1023.

(** [ParseFrameHeader] internal/frames/frame_header.go 102-107: panics on fewer than 6 bytes. *)
Definition parse_header (bs : bytes) : res bytes :=
  if FrameHeaderLen <=? len bs then Ok (takeN FrameHeaderLen bs) else Panic.

(** ** Frames *)
(** internal/frames/request_n.go 9-12 *)
Record request_n := { rn_stream : N; rn_n : N }.
(** internal/frames/cancel.go 5-7 *)
Record cancel := { cn_stream : N }.
(** internal/frames/error.go 9-13 *)
Record error_frame := { er_stream : N; er_code : N; er_data : bytes }.
(** internal/frames/payload.go 9-16 *)
Record payload := {
  pl_stream : N; pl_metadata : bytes; pl_data : bytes;
  pl_follows : bool; pl_complete : bool; pl_next : bool }.
(** internal/frames/request_payload.go 14-22 *)
Record request := {
  rq_type : N; rq_stream : N; rq_metadata : bytes; rq_data : bytes;
  rq_follows : bool; rq_complete : bool; rq_initial : N }.
(** internal/frames/setup.go 10-21 *)
Record setup := {
  su_major : N; su_minor : N;
  su_keepalive : Z; su_lifetime : Z;      (* time.Duration, nanoseconds *)
  su_token : bytes; su_mime_md : bytes; su_mime_data : bytes;
  su_metadata : bytes; su_data : bytes; su_lease : bool }.

(** internal/frames/request_n.go 22-42 *)
Definition encode_request_n (f : request_n) (buf : bytes) : res bytes :=
  put (header_bytes (rn_stream f) FrameTypeRequestN 0)
      (put (be 4 (rn_n f)) (fun b => Ok b)) buf.
(** internal/frames/request_n.go 40-42 *)
Definition size_request_n (f : request_n) : N := FrameHeaderLen + 4.
(** internal/frames/request_n.go 22-31 *)
Definition decode_request_n (h body : bytes) : res request_n :=
  nr <- get_be 4 body ;;
  Ok {| rn_stream := h_stream_id h; rn_n := fst nr |}.

(** internal/frames/cancel.go 17-31 *)
Definition encode_cancel (f : cancel) (buf : bytes) : res bytes :=
  put (header_bytes (cn_stream f) FrameTypeCancel 0) (fun b => Ok b) buf.
(** internal/frames/cancel.go 29-31 *)
Definition size_cancel (f : cancel) : N := FrameHeaderLen.
(** internal/frames/cancel.go 17-23 *)
Definition decode_cancel (h body : bytes) : res cancel :=
  Ok {| cn_stream := h_stream_id h |}.

(** internal/frames/error.go 23-47 *)
Definition encode_error (f : error_frame) (buf : bytes) : res bytes :=
  put (header_bytes (er_stream f) FrameTypeError 0)
      (put (be 4 (er_code f)) (copy_end (er_data f))) buf.
(** internal/frames/error.go 45-47 *)
Definition size_error (f : error_frame) : N := u32 (FrameHeaderLen + 4 + len (er_data f)).
(** internal/frames/error.go 23-34 *)
Definition decode_error (h body : bytes) : res error_frame :=
  cr <- get_be 4 body ;;
  Ok {| er_stream := h_stream_id h; er_code := fst cr; er_data := snd cr |}.

(** The shared metadata block: internal/frames/payload.go 34-41 and 75-82,
    request_payload.go 49-56 and 91-98, setup.go 61-68 and 128-135.  Three
    bytes of length, the metadata, then the data to the end. *)
Definition put_metadata (md : bytes) (k : bytes -> res bytes) : bytes -> res bytes :=
  let mdlen := u32 (len md) in
  if 0 <? mdlen
  then put (be 3 mdlen) (copy_adv md mdlen k)
  else k.
(** internal/frames/payload.go 34-41 *)
Definition get_metadata (has : bool) (body : bytes) : res (bytes * bytes) :=
  if has
  then lr <- get_be 3 body ;; split_at (fst lr) (snd lr)
  else Ok ([], body).

(** internal/frames/payload.go 55-85 *)
Definition payload_flags (f : payload) : N :=
  or_flag (0 <? u32 (len (pl_metadata f))) FlagMetadata
  (or_flag (pl_next f) FlagNext
  (or_flag (pl_complete f) FlagComplete
  (or_flag (pl_follows f) FlagFollow 0))).
(** internal/frames/payload.go 55-85 *)
Definition encode_payload (f : payload) (buf : bytes) : res bytes :=
  put (header_bytes (pl_stream f) FrameTypePayload (payload_flags f))
      (put_metadata (pl_metadata f) (copy_end (pl_data f))) buf.
(** internal/frames/payload.go 87-96 *)
Definition size_payload (f : payload) : N :=
  let size := u32 (FrameHeaderLen + u32 (len (pl_metadata f) + len (pl_data f))) in
  if 0 <? u32 (len (pl_metadata f)) then u32 (size + 3) else size.
(** internal/frames/payload.go 26-53 *)
Definition decode_payload (h body : bytes) : res payload :=
  let flags := h_flag h in
  md <- get_metadata (flag_check flags FlagMetadata) body ;;
  Ok {| pl_stream := h_stream_id h; pl_metadata := fst md; pl_data := snd md;
        pl_follows := flag_check flags FlagFollow;
        pl_complete := flag_check flags FlagComplete;
        pl_next := flag_check flags FlagNext |}.

(** [FrameTypeRequestStream || FrameTypeRequestChannel]; internal/frames/request_payload.go 40-43, 86-89 *)
Definition has_initial (ty : N) : bool :=
  (ty =? FrameTypeRequestStream) || (ty =? FrameTypeRequestChannel).

(** internal/frames/request_payload.go 71-101 *)
Definition request_flags (f : request) : N :=
  or_flag (0 <? u32 (len (rq_metadata f))) FlagMetadata
  (or_flag ((rq_type f =? FrameTypeRequestChannel) && rq_complete f) FlagComplete 0).
(** internal/frames/request_payload.go 71-101 *)
Definition encode_request (f : request) (buf : bytes) : res bytes :=
  let tail := put_metadata (rq_metadata f) (copy_end (rq_data f)) in
  put (header_bytes (rq_stream f) (rq_type f) (request_flags f))
      (if has_initial (rq_type f) then put (be 4 (rq_initial f)) tail else tail) buf.
(** internal/frames/request_payload.go 103-115 *)
Definition size_request (f : request) : N :=
  let s0 := if has_initial (rq_type f) then FrameHeaderLen + 4 else FrameHeaderLen in
  let size := u32 (s0 + u32 (len (rq_metadata f) + len (rq_data f))) in
  if 0 <? u32 (len (rq_metadata f)) then u32 (size + 3) else size.
(** internal/frames/request_payload.go 32-69 *)
Definition decode_request (h body : bytes) : res request :=
  let ty := h_type h in
  let flags := h_flag h in
  ni <- (if has_initial ty then get_be 4 body else Ok (1, body)) ;;
  let complete := if ty =? FrameTypeRequestChannel
                  then flag_check flags FlagComplete else true in
  md <- get_metadata (flag_check flags FlagMetadata) (snd ni) ;;
  Ok {| rq_type := ty; rq_stream := h_stream_id h;
        rq_metadata := fst md; rq_data := snd md;
        rq_follows := flag_check flags FlagFollow;
        rq_complete := complete; rq_initial := fst ni |}.

(** internal/frames/setup.go 106-107: [uint32(d)/uint32(time.Millisecond)]; 40-41:
    [time.Millisecond * time.Duration(v)] (cannot overflow an int64). *)
Definition duration_to_wire (d : Z) : N := Z.to_N (d mod 4294967296) / 1000000.
(** internal/frames/setup.go 40-41 *)
Definition duration_of_wire (v : N) : Z := (Z.of_N v * 1000000)%Z.

(** internal/frames/setup.go 86-138.  The four fixed fields are written at offsets 0, 2, 4, 8
    and the slice advanced by 12. *)
Definition setup_flags (f : setup) : N :=
  or_flag (0 <? u32 (len (su_metadata f))) FlagMetadata
  (or_flag (0 <? u16 (len (su_token f))) FlagResume
  (or_flag (su_lease f) FlagLease 0)).
(** internal/frames/setup.go 111-116 *)
Definition put_token (t : bytes) (k : bytes -> res bytes) : bytes -> res bytes :=
  let tl := u16 (len t) in
  if 0 <? tl then put (be 2 tl) (copy_adv t tl k) else k.
(** internal/frames/setup.go 118-126: one length byte (truncated), then the string. *)
Definition put_mime (m : bytes) (k : bytes -> res bytes) : bytes -> res bytes :=
  put (u8 (len m) :: m) k.
(** internal/frames/setup.go 86-138 *)
Definition encode_setup (f : setup) (buf : bytes) : res bytes :=
  put (header_bytes 0 FrameTypeSetup (setup_flags f))
  (put (be 2 (su_major f) ++ be 2 (su_minor f)
        ++ be 4 (duration_to_wire (su_keepalive f))
        ++ be 4 (duration_to_wire (su_lifetime f)))
  (put_token (su_token f)
  (put_mime (su_mime_md f)
  (put_mime (su_mime_data f)
  (put_metadata (su_metadata f)
  (copy_end (su_data f))))))) buf.
(** internal/frames/setup.go 140-153; line 145 adds [len(f.Token)] twice. *)
Definition size_setup (f : setup) : N :=
  let mdl := u32 (len (su_metadata f)) in
  let tl := u32 (len (su_token f)) in
  let s := u32 (FrameHeaderLen + 14 + mdl + tl
                + u32 (len (su_data f) + len (su_token f)
                       + len (su_mime_md f) + len (su_mime_data f))) in
  let s := if 0 <? tl then u32 (s + 2) else s in
  if 0 <? mdl then u32 (s + 3) else s.
(** internal/frames/setup.go 52-58: [data[1 : 1+n]] with [1+n] computed in uint8, so that
    n = 255 gives [data[1:0]], a panic. *)
Definition get_mime (data : bytes) : res (bytes * bytes) :=
  match data with
  | [] => Panic
  | n :: rest =>
      let hi := u8 (1 + n) in
      if hi <? 1 then Panic else split_at (hi - 1) rest
  end.
(** internal/frames/setup.go 46-50: [2+tokenLength] computed in uint16. *)
Definition get_token (resume : bool) (data : bytes) : res (bytes * bytes) :=
  if resume then
    lr <- get_be 2 data ;;
    let hi := u16 (2 + fst lr) in
    if hi <? 2 then Panic else split_at (hi - 2) (snd lr)
  else Ok ([], data).
(** internal/frames/setup.go 31-84 *)
Definition decode_setup (h body : bytes) : res setup :=
  let flags := h_flag h in
  major <- get_be 2 body ;;
  minor <- get_be 2 (snd major) ;;
  ka <- get_be 4 (snd minor) ;;
  lt <- get_be 4 (snd ka) ;;
  tok <- get_token (flag_check flags FlagResume) (snd lt) ;;
  mm <- get_mime (snd tok) ;;
  md <- get_mime (snd mm) ;;
  meta <- get_metadata (flag_check flags FlagMetadata) (snd md) ;;
  Ok {| su_major := fst major; su_minor := fst minor;
        su_keepalive := duration_of_wire (fst ka);
        su_lifetime := duration_of_wire (fst lt);
        su_token := fst tok; su_mime_md := fst mm; su_mime_data := fst md;
        su_metadata := fst meta; su_data := snd meta;
        su_lease := flag_check flags FlagLease |}.

(** ** Any frame: internal/frames/frame.go (interface Frame) *)
(** internal/frames/frame.go 3-14 *)
Inductive frame :=
| FSetup (f : setup)
| FRequest (f : request)
| FRequestN (f : request_n)
| FCancel (f : cancel)
| FPayload (f : payload)
| FError (f : error_frame).

(** internal/frames/frame.go 3-14 *)
Definition frame_type (f : frame) : N :=
  match f with
  | FSetup _ => FrameTypeSetup
  | FRequest r => rq_type r
  | FRequestN _ => FrameTypeRequestN
  | FCancel _ => FrameTypeCancel
  | FPayload _ => FrameTypePayload
  | FError _ => FrameTypeError
  end.
(** internal/frames/frame.go 3-14 *)
Definition frame_stream (f : frame) : N :=
  match f with
  | FSetup _ => 0
  | FRequest r => rq_stream r
  | FRequestN r => rn_stream r
  | FCancel r => cn_stream r
  | FPayload r => pl_stream r
  | FError r => er_stream r
  end.
(** internal/frames/frame.go 3-14 *)
Definition encode_frame (f : frame) : bytes -> res bytes :=
  match f with
  | FSetup x => encode_setup x
  | FRequest x => encode_request x
  | FRequestN x => encode_request_n x
  | FCancel x => encode_cancel x
  | FPayload x => encode_payload x
  | FError x => encode_error x
  end.
(** internal/frames/frame.go 3-14 *)
Definition size_frame (f : frame) : N :=
  match f with
  | FSetup x => size_setup x
  | FRequest x => size_request x
  | FRequestN x => size_request_n x
  | FCancel x => size_cancel x
  | FPayload x => size_payload x
  | FError x => size_error x
  end.

(** [make([]byte, n)]: n zero bytes.  transport/rsocket/tcp_conn.go 114 *)
Definition zeros (n : N) : bytes := repeat 0 (N.to_nat n).
(** [buf := make([]byte, f.Size()); f.Encode(buf)], the pattern used by the
    transports (transport/rsocket/tcp_conn.go 103, 114-115). *)
Definition frame_to_bytes (f : frame) : res bytes := encode_frame f (zeros (size_frame f)).

(** Decode a received frame: parse the header, pass the rest to the decoder
    chosen by the type (transport/rsocket/tcp_conn.go 49-98); the [default] case is the error. *)
Definition decode_by_type (h body : bytes) : res frame :=
  let ty := h_type h in
  if ty =? FrameTypeSetup then f <- decode_setup h body ;; Ok (FSetup f)
  else if (ty =? FrameTypeRequestResponse) || (ty =? FrameTypeRequestFNF)
       || (ty =? FrameTypeRequestStream) || (ty =? FrameTypeRequestChannel)
       then f <- decode_request h body ;; Ok (FRequest f)
  else if ty =? FrameTypeRequestN then f <- decode_request_n h body ;; Ok (FRequestN f)
  else if ty =? FrameTypeCancel then f <- decode_cancel h body ;; Ok (FCancel f)
  else if ty =? FrameTypePayload then f <- decode_payload h body ;; Ok (FPayload f)
  else if ty =? FrameTypeError then f <- decode_error h body ;; Ok (FError f)
  else Err "unknown frame".
(** transport/rsocket/tcp_conn.go 49-98 *)
Definition frame_of_bytes (bs : bytes) : res frame :=
  h <- parse_header bs ;; decode_by_type h (dropN FrameHeaderLen bs).

(** ** Fragmentation *)

(** One iteration of the loop of [splitPayloads], internal/frames/util.go 18-57: [None] is
    [break], otherwise the appended frame and the new (data, metadata). *)
Definition split_iter (sid : N) (next complete : bool) (max : N) (data md : bytes)
  : option (payload * (bytes * bytes)) :=
  let lenMd := u32 (len md) in
  let lenData := u32 (len data) in
  if u32 (lenMd + lenData) =? 0 then None else
  let nonData := if 0 <? lenMd then FrameHeaderLen + 3 else FrameHeaderLen in
  let space := sub32 max nonData in
  let follows := max <? u32 (nonData + lenMd + lenData) in
  let mk md' d' :=
    {| pl_stream := sid; pl_metadata := md'; pl_data := d';
       pl_follows := follows;
       pl_complete := negb follows && complete;
       pl_next := negb follows && next |} in
  if space <? lenMd then
    Some (mk (takeN space md) [], (data, dropN space md))
  else if sub32 space lenMd <? lenData then
    let ds := N.min (sub32 space lenMd) lenData in
    Some (mk md (takeN ds data), (dropN ds data, []))
  else Some (mk md data, ([], [])).

(** The loop of internal/frames/util.go 17-61 with a bound on the number of iterations;
    [None] means the loop has not ended within the bound. *)
Fixpoint split_loop (fuel : nat) (sid : N) (next complete : bool) (max : N)
    (data md : bytes) : option (list payload) :=
  match fuel with
  | O => None
  | S fuel' =>
      match split_iter sid next complete max data md with
      | None => Some []
      | Some (p, (data', md')) =>
          match split_loop fuel' sid next complete max data' md' with
          | None => None
          | Some ps => Some (p :: ps)
          end
      end
  end.

(** internal/frames/payload.go 98-105; [Some []] is Go's nil (no fragmentation needed). *)
Definition fragment_payload (fuel : nat) (f : payload) (max : N) : option (list payload) :=
  if size_payload f <=? max then Some []
  else split_loop fuel (pl_stream f) (pl_next f) (pl_complete f) max
                  (pl_data f) (pl_metadata f).

(** internal/frames/request_payload.go 117-166.  [Ok None]: not fragmented. *)
Definition fragment_request_head (f : request) (max : N)
  : res (option (request * (bytes * bytes))) :=
  let size := size_request f in
  if size <=? max then Ok None else
  let nonData := if has_initial (rq_type f) then FrameHeaderLen + 4 else FrameHeaderLen in
  let maxMD := sub32 (sub32 max nonData) 3 in
  let lenMd := u32 (len (rq_metadata f)) in
  let mk md d :=
    {| rq_type := rq_type f; rq_stream := rq_stream f; rq_metadata := md; rq_data := d;
       rq_follows := true; rq_complete := false; rq_initial := rq_initial f |} in
  if maxMD <=? lenMd then
    s <- split_at maxMD (rq_metadata f) ;;
    Ok (Some (mk (fst s) [], (rq_data f, snd s)))
  else
    let diff := sub32 size max in
    let off := sub32 (u32 (len (rq_data f))) diff in
    s <- split_at off (rq_data f) ;;
    Ok (Some (mk (rq_metadata f) (fst s), (snd s, rq_metadata f))).

(** The whole of [RequestPayload.Fragment]; note that in the second branch
    (147-161) the variable [metadata] is not cleared, so line 163 passes the
    metadata on once more.  Outer [option]: loop bound reached.  internal/frames/request_payload.go 117-166 *)
Definition fragment_request (fuel : nat) (f : request) (max : N)
  : option (res (option (request * list payload))) :=
  match fragment_request_head f max with
  | Ok None => Some (Ok None)
  | Ok (Some (r, (data, md))) =>
      match split_loop fuel (rq_stream f) true (rq_complete f) max data md with
      | None => None
      | Some ps => Some (Ok (Some (r, ps)))
      end
  | Err e => Some (Err e)
  | Panic => Some Panic
  end.

(** ** internal/u24/u24.go *)
(** internal/u24/u24.go 10 *)
Definition MaxUint24 := 16777215.
(** [NewUint24] internal/u24/u24.go 56-64: three bytes by shifting, and an error flag. *)
Definition new_uint24 (v : N) : bytes * option string :=
  ([u8 (N.shiftr v 16); u8 (N.shiftr v 8); u8 v],
   if MaxUint24 <? v then Some "uint24 exceed max value: 16777215"%string else None).
(** [MustNewUint24] internal/u24/u24.go 47-53 *)
Definition must_new_uint24 (v : N) : res bytes :=
  match new_uint24 v with (_, Some _) => Panic | (b, None) => Ok b end.
(** [WriteUint24] internal/u24/u24.go 73-80 on a writer that cannot fail: the bytes written. *)
Definition write_uint24 (v : N) : res bytes :=
  match new_uint24 v with (_, Some e) => Err e | (b, None) => Ok b end.
(** [ReadUint24ToInt] internal/u24/u24.go 83-86, [AsInt] 42-44, [NewUint24Bytes] 67-70. *)
Definition read_uint24 (p : bytes) : res N :=
  match p with
  | a :: b :: c :: _ => Ok (N.shiftl a 16 + N.shiftl b 8 + c)
  | _ => Panic
  end.
