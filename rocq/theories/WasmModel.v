(** Model of the shared-memory framing between host and guest:
    /repo/transport/wasmrs/host/instance.go 172-213 and
    /repo/transport/wasmrs/guest/guest.go 70-86, 526-533. *)
From Verif Require Import Base FramesModel.

(** How a splitting loop ended.  transport/wasmrs/host/instance.go 200-213 *)
Inductive loop_end := LoopDone | LoopPanic.

(** [copy(buf[0:], lengthBytes[1:4]); f.Encode(buf[3:])] on an existing buffer:
    transport/wasmrs/host/instance.go 181-184 and guest/guest.go 527-531.  The three low bytes
    of the 32-bit size are written.  Result: the new contents and the count
    [3+byteCount] (uint32) passed to the other side. *)
Definition write_frame (buf : bytes) (f : frame) : res (bytes * N) :=
  let byteCount := size_frame f in
  let b := copy_into (be 3 byteCount) buf in
  rest <- slice_from 3 b ;;
  e <- encode_frame f rest ;;
  Ok (takeN 3 b ++ e, u32 (3 + byteCount)).

(** [hostSend], transport/wasmrs/host/instance.go 200-213: loop over the bytes read.  Each
    frame is copied into a fresh slice (zero padded when bytes are missing),
    queued, and only then the buffer is advanced, which panics when bytes were
    missing.  [fuel] bounds the iterations; every iteration consumes at least
    3 bytes, so [length buffer] suffices. *)
Fixpoint host_loop (fuel : nat) (buffer : bytes) : list bytes * loop_end :=
  match fuel with
  | O => ([], LoopDone)
  | S fuel' =>
      match buffer with
      | [] => ([], LoopDone)
      | _ =>
          if len buffer <? 3 then ([], LoopPanic)
          else
            let frameLength := unbe (takeN 3 buffer) in
            let rest := dropN 3 buffer in
            let buf := copy_into rest (zeros frameLength) in
            if len rest <? frameLength then ([buf], LoopPanic)
            else let (l, e) := host_loop fuel' (dropN frameLength rest) in (buf :: l, e)
      end
  end.
(** transport/wasmrs/host/instance.go 200-213 *)
Definition host_split (buffer : bytes) : list bytes * loop_end :=
  host_loop (List.length buffer) buffer.

(** wazero's [Memory().Read(ptr, n)]: a view of linear memory, nil when out of
    range.  transport/wasmrs/host/instance.go 201 *)
Definition mem_read (mem : bytes) (ptr n : N) : bytes :=
  if ptr + n <=? len mem then takeN n (dropN ptr mem) else [].
(** [hostSend] on the guest's linear memory (201).  transport/wasmrs/host/instance.go 200-213 *)
Definition host_receive (mem : bytes) (recvPtr recvPos : N) : list bytes * loop_end :=
  host_split (mem_read mem recvPtr recvPos).

(** [GuestSend], transport/wasmrs/guest/guest.go 70-86: the loop that cuts the buffer into
    frames; what is done with each frame (88-257) is modelled elsewhere.
    [cur] is [curPos]; it stays below 2^32 because it never exceeds the
    buffer length.  A frame shorter than a header panics (85). *)
Fixpoint guest_loop (fuel : nat) (buf : bytes) (cur endPos : N) : list bytes * loop_end :=
  match fuel with
  | O => ([], LoopDone)
  | S fuel' =>
      if endPos <=? cur then ([], LoopDone)
      else if len buf <? 3 then ([], LoopPanic)                  (* buf[3:], 80 *)
      else
        let frameLen := unbe (takeN 3 buf) in
        let rest := dropN 3 buf in
        if len rest <? frameLen then ([], LoopPanic)             (* buf[3+frameLen:], 82 *)
        else
          let frameBuf := takeN frameLen rest in
          if len frameBuf <? FrameHeaderLen then ([], LoopPanic) (* 85-86 *)
          else
            let (l, e) := guest_loop fuel' (dropN frameLen rest) (cur + (3 + frameLen)) endPos in
            (frameBuf :: l, e)
  end.
(** transport/wasmrs/guest/guest.go 70-86 *)
Definition guest_receive (guestBuffer : bytes) (endPos : N) : list bytes * loop_end :=
  guest_loop (S (List.length guestBuffer)) guestBuffer 0 endPos.

(** ** internal/socket/stream_id.go: stream ids.

    [atomic.AddUint64] is one atomic step and the rest of a call uses only its
    result, so any concurrent execution is a sequence of such steps; the
    counter is [p].  [fuel] bounds the recursion of [Next]; 2 always suffices. *)
(** internal/socket/stream_id.go 20-28 *)
Fixpoint server_next (fuel : nat) (p : N) : option (N * (N * bool)) :=
  match fuel with
  | O => None
  | S fuel' =>
      let seed := u64 (p + 1) in
      let v := u64 (2 * seed) in
      if v =? 0 then server_next fuel' seed
      else Some (seed, (u32 (N.land 2147483647 v), seed <=? 1073741824))
  end.
(** internal/socket/stream_id.go 32-40; [seed-1] in uint64. *)
Fixpoint client_next (fuel : nat) (p : N) : option (N * (N * bool)) :=
  match fuel with
  | O => None
  | S fuel' =>
      let seed := u64 (p + 1) in
      let v := u64 (2 * u64 (seed + 18446744073709551615) + 1) in
      if v =? 0 then client_next fuel' seed
      else Some (seed, (u32 (N.land 2147483647 v), seed <=? 1073741824))
  end.
(** Calls by several goroutines: the schedule lists who calls next.  internal/socket/stream_id.go 18-40 *)
Fixpoint run_ids (next : N -> option (N * (N * bool))) (sched : list nat) (p : N)
  : option (list (nat * (N * bool))) :=
  match sched with
  | [] => Some []
  | t :: sched' =>
      match next p with
      | None => None
      | Some (p', r) =>
          match run_ids next sched' p' with
          | None => None
          | Some l => Some ((t, r) :: l)
          end
      end
  end.
