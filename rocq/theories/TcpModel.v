(** Model of /repo/transport/rsocket: decoder.go, tcp_conn.go, transport.go. *)
From Verif Require Import Base FramesModel BufferModel.

(** ** decoder.go 44-61: the split function *)
(** transport/rsocket/decoder.go 44-61 *)
Inductive split_result := SplitToken (advance : N) (token : bytes) | SplitMore | SplitErr (e : string).
(** transport/rsocket/decoder.go 44-61 *)
Definition do_split (data : bytes) (eof : bool) : split_result :=
  if eof then SplitMore
  else if len data <? 3 then SplitMore
  else match read_uint24 data with
       | Ok frameLength =>
           if frameLength <? 1 then SplitErr "rsocket: invalid frame length"
           else if frameLength + 3 <=? len data
                then SplitToken (frameLength + 3) (takeN (frameLength + 3) data)
                else SplitMore
       | _ => SplitMore (* not reached: at least 3 bytes *)
       end.

(** What successive [conn.Read] calls return: some bytes; or some bytes
    together with [io.EOF] (allowed by io.Reader).  After the last element
    every read returns (0, io.EOF).  transport/rsocket/decoder.go 63-70 *)
Inductive net_read := Chunk (c : bytes) | ChunkEof (c : bytes).

(** [bufio.Scanner.Scan] (Go standard library) with [do_split]: first try to
    split the pending bytes, and only then read.  Simplifications: the buffer
    is the list of unconsumed bytes (its growth up to [maxBuffSize] =
    2^24 + 3, transport/rsocket/decoder.go 15, 67-68, suffices for every 24-bit length, so
    ErrTooLong cannot occur; placement in memory is modelled separately
    below), and fewer than 100 empty reads occur in a row. *)
Inductive scan_result := ScanToken (t : bytes) | ScanEof | ScanErr (e : string).
(** transport/rsocket/decoder.go 28-42 *)
Fixpoint scan (pending : bytes) (reads : list net_read)
  : scan_result * (bytes * list net_read) :=
  match do_split pending false with
  | SplitToken n t => (ScanToken t, (dropN n pending, reads))
  | SplitErr e => (ScanErr e, (pending, reads))
  | SplitMore =>
      match reads with
      | [] => (ScanEof, ([], []))
      | Chunk c :: rs => scan (pending ++ c) rs
      | ChunkEof c :: rs =>
          match do_split (pending ++ c) true with
          | SplitToken n t => (ScanToken t, (dropN n (pending ++ c), []))
          | SplitErr e => (ScanErr e, ([], []))
          | SplitMore => (ScanEof, ([], []))
          end
      end
  end.

(** [LengthBasedFrameDecoder.Read], transport/rsocket/decoder.go 28-42 *)
Inductive raw_read := RawFrame (raw : bytes) | RawEof | RawErr (e : string).
(** transport/rsocket/decoder.go 28-42 *)
Definition decoder_read (pending : bytes) (reads : list net_read)
  : raw_read * (bytes * list net_read) :=
  let (r, st) := scan pending reads in
  (match r with
   | ScanToken t =>
       let raw := dropN 3 t in
       if len raw <? FrameHeaderLen then RawErr "incomplete frame header" else RawFrame raw
   | ScanEof => RawEof
   | ScanErr e => RawErr e
   end, st).

(** The sequence of raw frames obtained by reading until end or error.
    [fuel] bounds the number of reads; [None] if it is exhausted.  transport/rsocket/decoder.go 28-42 *)
Fixpoint read_raw_all (fuel : nat) (pending : bytes) (reads : list net_read)
  : option (list bytes * raw_read) :=
  match fuel with
  | O => None
  | S fuel' =>
      match decoder_read pending reads with
      | (RawFrame raw, (p, rs)) =>
          match read_raw_all fuel' p rs with
          | Some (l, e) => Some (raw :: l, e)
          | None => None
          end
      | (e, _) => Some ([], e)
      end
  end.

(** [TCPConn.Read], transport/rsocket/tcp_conn.go 39-99: the decoded frame. *)
Inductive conn_read := ConnFrame (f : frame) | ConnEof | ConnErr (e : string) | ConnPanic.
(** transport/rsocket/tcp_conn.go 49-98 *)
Definition decode_raw (raw : bytes) : conn_read :=
  match frame_of_bytes raw with Ok f => ConnFrame f | Err e => ConnErr e | Panic => ConnPanic end.
(** transport/rsocket/tcp_conn.go 39-99 *)
Fixpoint read_frames_all (fuel : nat) (pending : bytes) (reads : list net_read)
  : option (list frame * conn_read) :=
  match fuel with
  | O => None
  | S fuel' =>
      match decoder_read pending reads with
      | (RawFrame raw, (p, rs)) =>
          match decode_raw raw with
          | ConnFrame f =>
              match read_frames_all fuel' p rs with
              | Some (l, e) => Some (f :: l, e)
              | None => None
              end
          | e => Some ([], e)
          end
      | (RawEof, _) => Some ([], ConnEof)
      | (RawErr e, _) => Some ([], ConnErr e)
      end
  end.

(** [TCPConn.Write], transport/rsocket/tcp_conn.go 102-124: two writes to the buffered writer,
    the 3-byte length and the encoded frame.  The buffered writer itself
    (bufio, flushing) is modelled as appending to the byte stream. *)
Definition conn_write (f : frame) : res (list bytes) :=
  hd <- must_new_uint24 (size_frame f) ;;
  body <- frame_to_bytes f ;;
  Ok [hd; body].

(** ** Concurrent senders.  Each goroutine has a list of pending writes; a
    schedule says whose next write is appended to the stream.  (One write is
    taken as atomic, the finest interleaving in which bufio is not itself
    corrupted.) *)
(** transport/rsocket/tcp_conn.go 102-124 *)
Fixpoint pop_thread (i : nat) (ts : list (list bytes)) : bytes * list (list bytes) :=
  match ts, i with
  | [], _ => ([], [])
  | (w :: ws) :: ts', O => (w, ws :: ts')
  | [] :: ts', O => ([], [] :: ts')
  | t :: ts', S i' => let (w, r) := pop_thread i' ts' in (w, t :: r)
  end.
(** transport/rsocket/tcp_conn.go 102-124 *)
Fixpoint run_writers (sched : list nat) (ts : list (list bytes)) : bytes :=
  match sched with
  | [] => []
  | i :: sched' => let (w, ts') := pop_thread i ts in w ++ run_writers sched' ts'
  end.

(** ** The scanner's buffer as memory.

    bufio.Scanner keeps one array [mem] and indices start <= end; tokens are
    views into it.  Modelled: the part of [Scan] (bufio/scan.go) that places
    the next read: shift down when the free end is used up or more than half
    the array is consumed, allocate a larger array when full, then read at
    [end].  A view is (generation, offset, length); allocating a new array
    starts a new generation, old arrays keep their contents. *)
(** transport/rsocket/decoder.go 63-70 *)
Record smem := { sm_mem : bytes; sm_start : N; sm_end : N; sm_gen : N; sm_old : list bytes }.
(** [make([]byte, 0, minBuffSize)] extended to its capacity, transport/rsocket/decoder.go 67-68
    ([Scanner.Buffer] uses [buf[0:cap(buf)]]). *)
Definition smem_new (size : N) : smem :=
  {| sm_mem := zeros size; sm_start := 0; sm_end := 0; sm_gen := 0; sm_old := [] |}.
(** transport/rsocket/decoder.go 63-70 *)
Definition write_at (off : N) (bs mem : bytes) : bytes :=
  takeN off mem ++ bs ++ dropN (off + len bs) mem.
(** transport/rsocket/decoder.go 63-70 *)
Definition sub_mem (off n : N) (mem : bytes) : bytes := takeN n (dropN off mem).
(** First "shift" then (if still full) "grow" then read [c] (at most the free
    space).  transport/rsocket/decoder.go 63-70 *)
Definition smem_read (s : smem) (c : bytes) : smem :=
  let pend := sub_mem (sm_start s) (sm_end s - sm_start s) (sm_mem s) in
  let s1 :=
    if (0 <? sm_start s) && ((sm_end s =? len (sm_mem s)) || (len (sm_mem s) / 2 <? sm_start s))
    then {| sm_mem := write_at 0 pend (sm_mem s); sm_start := 0; sm_end := len pend;
            sm_gen := sm_gen s; sm_old := sm_old s |}
    else s in
  let s2 :=
    if sm_end s1 =? len (sm_mem s1)
    then {| sm_mem := pend ++ zeros (2 * len (sm_mem s1) - len pend);
            sm_start := 0; sm_end := len pend;
            sm_gen := sm_gen s1 + 1; sm_old := sm_old s1 ++ [sm_mem s1] |}
    else s1 in
  {| sm_mem := write_at (sm_end s2) c (sm_mem s2); sm_start := sm_start s2;
     sm_end := sm_end s2 + len c; sm_gen := sm_gen s2; sm_old := sm_old s2 |}.
(** A view and its present contents.  transport/rsocket/decoder.go 37 *)
Definition view := (N * (N * N))%type.
(** transport/rsocket/decoder.go 37 *)
Definition view_bytes (s : smem) (v : view) : bytes :=
  let '(g, (off, n)) := v in
  if g =? sm_gen s then sub_mem off n (sm_mem s)
  else sub_mem off n (nth (N.to_nat g) (sm_old s) []).
(** Return the next token if the pending bytes contain one: the view of its
    body (3 length bytes skipped), and the state with [start] advanced.  transport/rsocket/decoder.go 28-42 *)
Definition smem_token (s : smem) : option (view * smem) :=
  match do_split (sub_mem (sm_start s) (sm_end s - sm_start s) (sm_mem s)) false with
  | SplitToken n t =>
      Some ((sm_gen s, (sm_start s + 3, n - 3)),
            {| sm_mem := sm_mem s; sm_start := sm_start s + n; sm_end := sm_end s;
               sm_gen := sm_gen s; sm_old := sm_old s |})
  | _ => None
  end.

(** ** transport.go 157-232: a session.

    Reader goroutine = [Start]; dispatcher goroutine = [loopReadBuffer].
    [ss_input] are the results of successive [conn.Read] calls.  HandleFrame
    is abstracted to recording the frame; its error (and ctx.Done) can make
    the reader leave at any moment, modelled by the step [SAbort]. *)
(** transport/rsocket/transport.go 178-232 *)
Inductive reader_phase := RFirst | RLoop | RExit | RDisposed | RDone.
(** transport/rsocket/transport.go 157-175 *)
Inductive disp_phase := DWait | DLoad | DDone.
(** transport/rsocket/transport.go 157-232 *)
Record session := {
  ss_server : bool;
  ss_reader : reader_phase;
  ss_input : list conn_read;
  ss_buf : buf frame;
  ss_disp : disp_phase;
  ss_delivered : list frame;       (* frames passed to HandleFrame, in order *)
  ss_read : list frame;            (* ghost: frames returned by conn.Read so far *)
  ss_conn_closed : bool }.
(** transport/rsocket/transport.go 178-196 *)
Definition session_new (server : bool) (input : list conn_read) : session :=
  {| ss_server := server; ss_reader := RFirst; ss_input := input; ss_buf := buf_new;
     ss_disp := DWait; ss_delivered := []; ss_read := []; ss_conn_closed := false |}.

(** transport/rsocket/transport.go 203 *)
Definition is_setup (f : frame) : bool := match f with FSetup _ => true | _ => false end.
(** transport/rsocket/transport.go 178-232 *)
Definition set_reader (s : session) (p : reader_phase) (inp : list conn_read) (b : buf frame)
    (del rd : list frame) (closed : bool) : session :=
  {| ss_server := ss_server s; ss_reader := p; ss_input := inp; ss_buf := b;
     ss_disp := ss_disp s; ss_delivered := del; ss_read := rd; ss_conn_closed := closed |}.
(** transport/rsocket/transport.go 157-175 *)
Definition set_disp (s : session) (p : disp_phase) (b : buf frame) (del : list frame) : session :=
  {| ss_server := ss_server s; ss_reader := ss_reader s; ss_input := ss_input s; ss_buf := b;
     ss_disp := p; ss_delivered := del; ss_read := ss_read s; ss_conn_closed := ss_conn_closed s |}.

(** transport/rsocket/transport.go 157-232 *)
Inductive sstep := SReader (handler_error : bool) | SAbort | SDisp.
(** transport/rsocket/transport.go 157-232 *)
Definition session_step (s : session) (st : sstep) : res session :=
  match st with
  | SReader herr =>
      match ss_reader s with
      | RFirst =>                                               (* 198-212 *)
          if ss_server s then
            match ss_input s with
            | [] => Ok s                                        (* blocked in Read *)
            | ConnFrame f :: inp =>
                if is_setup f
                then Ok (set_reader s (if herr then RExit else RLoop) inp (ss_buf s)
                           (ss_delivered s ++ [f]) (ss_read s ++ [f]) (ss_conn_closed s))
                else Ok (set_reader s RExit inp (ss_buf s)
                           (ss_delivered s) (ss_read s ++ [f]) (ss_conn_closed s))
            | ConnPanic :: _ => Panic
            | _ :: inp => Ok (set_reader s RExit inp (ss_buf s)
                           (ss_delivered s) (ss_read s) (ss_conn_closed s))
            end
          else Ok (set_reader s RLoop (ss_input s) (ss_buf s)
                     (ss_delivered s) (ss_read s) (ss_conn_closed s))
      | RLoop =>                                                (* 214-231 *)
          match ss_input s with
          | [] => Ok s
          | ConnFrame f :: inp =>
              r <- buf_put f (ss_buf s) ;;
              Ok (set_reader s RLoop inp (snd r) (ss_delivered s) (ss_read s ++ [f])
                    (ss_conn_closed s))
          | ConnPanic :: _ => Panic
          | _ :: inp => Ok (set_reader s RExit inp (ss_buf s)
                              (ss_delivered s) (ss_read s) (ss_conn_closed s))
          end
      | RExit =>                                                (* 190-191 *)
          Ok (set_reader s RDisposed (ss_input s) (buf_dispose (ss_buf s))
                (ss_delivered s) (ss_read s) (ss_conn_closed s))
      | RDisposed =>                                            (* 193, 179-181 *)
          match ss_disp s with
          | DDone => Ok (set_reader s RDone (ss_input s) (ss_buf s)
                           (ss_delivered s) (ss_read s) true)
          | _ => Ok s
          end
      | RDone => Ok s
      end
  | SAbort =>
      match ss_reader s with
      | RFirst | RLoop => Ok (set_reader s RExit (ss_input s) (ss_buf s)
                                (ss_delivered s) (ss_read s) (ss_conn_closed s))
      | _ => Ok s
      end
  | SDisp =>
      match ss_disp s with
      | DWait =>                                                (* 162-163 *)
          match buf_recv (ss_buf s) with
          | (RValue f, b) => Ok (set_disp s DLoad b (ss_delivered s ++ [f]))
          | (RClosed, b) => Ok (set_disp s DDone b (ss_delivered s))
          | (RBlocked, b) => Ok s
          end
      | DLoad =>                                                (* 171-173 *)
          r <- buf_load (ss_buf s) ;;
          Ok (set_disp s DWait (snd r) (ss_delivered s))
      | DDone => Ok s
      end
  end.
(** transport/rsocket/transport.go 157-232 *)
Fixpoint session_run (s : session) (sts : list sstep) : res session :=
  match sts with
  | [] => Ok s
  | st :: sts' => s' <- session_step s st ;; session_run s' sts'
  end.
