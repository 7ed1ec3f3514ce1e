(** Model of the reader of custom sections,
    /repo/transport/wasmrs/customsections/customsections.go. *)
From Verif Require Import Base FramesModel MeshModel.

(** [leb128.DecodeUint32] of the library wabin, which is not part of the
    repository: unsigned LEB128 as the WebAssembly specification has it, at most
    five bytes, the four unused bits of the fifth byte must be zero.  [shift] is
    the weight of the next byte, [left] the number of bytes still allowed.
    Result: value, bytes read, rest.  transport/wasmrs/customsections/customsections.go 50, 104 *)
Fixpoint leb_go (left : nat) (shift ret n : N) (b : bytes) : res (N * N * bytes) :=
  match left, b with
  | O, _ => Err "overflows a 32-bit integer"
  | _, [] => Err "EOF"
  | S left', x :: b' =>
      if x <? 128 then
        if (match left' with O => 15 <? x | _ => false end) then Err "overflows a 32-bit integer"
        else Ok (ret + x * shift, n + 1, b')
      else leb_go left' (shift * 128) (ret + (x - 128) * shift) (n + 1) b'
  end.
(** transport/wasmrs/customsections/customsections.go 50, 104 *)
Definition leb128 (b : bytes) : res (N * N * bytes) := leb_go 5 1 0 0 b.

Section Reader.
(** [utf8.Valid]; any function will do. *)
Context (valid : bytes -> bool).

(** [io.ReadFull], and [io.CopyN] to [io.Discard]: exactly [n] bytes or an error;
    with [n = 0] no error at the end of the data.  Buffers of up to 4 GiB are
    assumed to be allocated.  transport/wasmrs/customsections/customsections.go 25, 30, 76, 83, 110 *)
Definition read_full (n : N) (r : bytes) : res (bytes * bytes) :=
  if len r <? n then Err "EOF" else Ok (takeN n r, dropN n r).
(** [bytes.Reader.Read] into a fresh buffer of [n] bytes: EOF when nothing is
    left, also for [n = 0]; otherwise what there is, zeros after it.  transport/wasmrs/customsections/customsections.go 125-126 *)
Definition read_some (n : N) (r : bytes) : res (bytes * bytes) :=
  match r with [] => Err "EOF" | _ => Ok (takeN n r ++ zeros (n - len r), dropN n r) end.
(** [decodeUTF8], transport/wasmrs/customsections/customsections.go 103-119; the size returned is a uint32. *)
Definition decode_utf8 (r : bytes) : res (bytes * N * bytes) :=
  match leb128 r with
  | Ok (size, n, r1) =>
      match read_full size r1 with
      | Ok (buf, r2) => if valid buf then Ok (buf, u32 (size + n), r2) else Err "not valid UTF-8"
      | Err e => Err e
      | Panic => Panic
      end
  | Err e => Err e
  | Panic => Panic
  end.
(** One round of the loop, transport/wasmrs/customsections/customsections.go 40-96, after the section id [id]; the sections found
    so far are the association list [m].  Every path to an error ends the
    reading (52, 73, 78, 84, 94), so the first one is returned; messages are
    shortened. *)
Definition read_section (wanted : bytes -> bool) (id : N) (r : bytes) (m : list (bytes * bytes)) : res (list (bytes * bytes) * bytes) :=
  s <- leb128 r ;;                                                            (* 50 *)
  let '(size, _, r0) := s in
  x <- (if id =? 0 then
          d <- decode_utf8 r0 ;;                                              (* 59 *)
          let '(name, nameSize, r1) := d in
          if size <? nameSize then Err "malformed custom section"             (* 63 *)
          else
            let limit := size - nameSize in
            if wanted name then
              c <- read_some limit r1 ;;                                      (* 70, 124-134 *)
              Ok (assign name (fst c) m, snd c)
            else
              c <- read_full limit r1 ;;                                      (* 76 *)
              Ok (m, snd c)
        else
          c <- read_full size r0 ;;                                           (* 83 *)
          Ok (m, snd c)) ;;
  if size =? len r0 - len (snd x) then Ok x else Err "invalid section length". (* 88-91 *)
(** The loop, transport/wasmrs/customsections/customsections.go 40-96; every round takes at least the section id, so there are not
    more rounds than bytes. *)
Fixpoint read_sections (fuel : nat) (wanted : bytes -> bool) (r : bytes) (m : list (bytes * bytes)) : res (list (bytes * bytes)) :=
  match r with
  | [] => Ok m                                                                (* 44 *)
  | id :: r' =>
      match fuel with
      | O => Err "fuel"
      | S fuel' =>
          x <- read_section wanted id r' m ;;
          read_sections fuel' wanted (snd x) (fst x)
      end
  end.
(** [Read], 20-99, with [binary.Magic] and [version], 14-16, 24-33; the names
    asked for are a set (34-37).  transport/wasmrs/customsections/customsections.go 25 *)
Definition wasm_magic : bytes := [0; 97; 115; 109].
(** transport/wasmrs/customsections/customsections.go 14-16 *)
Definition wasm_version : bytes := [1; 0; 0; 0].
(** transport/wasmrs/customsections/customsections.go 20-99 *)
Definition read_module (data : bytes) (names : list bytes) : res (list (bytes * bytes)) :=
  let wanted n := existsb (fun x => if list_eq_dec N.eq_dec n x then true else false) names in
  match read_full 4 data with
  | Ok (a, r1) =>
      if list_eq_dec N.eq_dec a wasm_magic then
        match read_full 4 r1 with
        | Ok (b, r2) => if list_eq_dec N.eq_dec b wasm_version then read_sections (List.length r2) wanted r2 [] else Err "invalid version header"
        | _ => Err "invalid version header"
        end
      else Err "invalid magic number"
  | _ => Err "invalid magic number"
  end.
End Reader.
