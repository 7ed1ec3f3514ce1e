(** Model of /repo/transport/wasmrs/example/wordfrequency: wordfrequency.go and
    generated.go 16-119, as run in a WebAssembly guest, where requests
    are synchronous (rx/flux/flux_webassembly.go).

    The processors [words] and [counts] have their subscriber before anything is
    pushed (generated.go 53, 87), so they hand on every call (C88); a subscriber
    that is closed ignores calls (rx/flux/flux.go 127-162).  Both request
    rx.RequestMax at once (flux.go 184-193), so [counts] is asked for all counts
    as soon as its source is announced (174-182).  A guest has less than 2^31
    bytes of memory and so less than RequestMax counts or words.  Only the calls
    of [sink] are kept. *)
From Verif Require Import Base MsgpackModel InvokeModel TransformModel TableModel.

(** transport/wasmrs/example/wordfrequency/wordfrequency.go 59-71: i the and to of a my in you is that *)
Definition ignored_words : list bytes :=
  [[105]; [116; 104; 101]; [97; 110; 100]; [116; 111]; [111; 102]; [97]; [109; 121]; [105; 110]; [121; 111; 117]; [105; 115]; [116; 104; 97; 116]].
(** transport/wasmrs/example/wordfrequency/wordfrequency.go 18 *)
Definition is_ignored (w : bytes) : bool := existsb (bytes_eqb w) ignored_words.
(** "words", "counts"; transport/wasmrs/example/wordfrequency/generated.go 100 *)
Definition port_words : bytes := [119; 111; 114; 100; 115].
(** transport/wasmrs/example/wordfrequency/generated.go 61, 69 *)
Definition port_counts : bytes := [99; 111; 117; 110; 116; 115].

Section Words.
(** strings.ToLower, and what [makeWordCounts] (33-44) makes of the entries of
    the map: iteration in any order and sort.Sort. *)
Variable lower : bytes -> bytes.
Variable arrange : list (bytes * N) -> list (bytes * N).

(** transport/wasmrs/example/wordfrequency/wordfrequency.go 19: [counts[word] = counts[word] + 1] on uint64 *)
Fixpoint bump (w : bytes) (t : list (bytes * N)) : list (bytes * N) :=
  match t with
  | [] => [(w, 1)]
  | (w', n) :: t' => if bytes_eqb w w' then (w', (n + 1) mod 18446744073709551616) :: t' else (w', n) :: bump w t'
  end.
(** transport/wasmrs/example/wordfrequency/wordfrequency.go 15-21 *)
Definition see_word (t : list (bytes * N)) (word : bytes) : list (bytes * N) :=
  let w := lower word in if is_ignored w then t else bump w t.

(** Calls of [sink] that take effect: a payload (data, metadata), the end.  transport/wasmrs/example/wordfrequency/generated.go 36-118 *)
Inductive sinkcall := KeepNext (data meta : bytes) | KeepComplete | KeepError (e : string).
(** transport/wasmrs/example/wordfrequency/generated.go 36-49 *)
Record wordfreq := { wf_table : list (bytes * N); wf_words_open : bool; wf_counts_open : bool; wf_sink : list sinkcall; wf_sink_open : bool }.
(** transport/wasmrs/example/wordfrequency/generated.go 36-49 *)
Definition wf_init : wordfreq := {| wf_table := []; wf_words_open := true; wf_counts_open := true; wf_sink := []; wf_sink_open := true |}.
(** transport/wasmrs/example/wordfrequency/generated.go 36-118 *)
Definition sink_call (k : sinkcall) (c : wordfreq) : wordfreq :=
  if wf_sink_open c then
    {| wf_table := wf_table c; wf_words_open := wf_words_open c; wf_counts_open := wf_counts_open c; wf_sink := wf_sink c ++ [k];
       wf_sink_open := match k with KeepNext _ _ => true | _ => false end |}
  else c.
(** [transform.CodecEncode] of a WordCount, transport/wasmrs/example/wordfrequency/generated.go 155-166 *)
Definition count_calls (wc : bytes * N) : list wcall := tab_encode count_table (Some wc).
(** transport/wasmrs/example/wordfrequency/generated.go 54-66 *)
Definition counts_next (wc : bytes * N) (c : wordfreq) : res wordfreq :=
  match to_bytes (count_calls wc) (count_calls wc) with
  | Ok d => m <- encode_port {| po_port := port_counts; po_data := []; po_complete := false; po_next := true |} ;;
            Ok (sink_call (KeepNext d m) c)
  | Err e => Ok (sink_call (KeepError e) c)
  | Panic => Panic
  end.
(** transport/wasmrs/example/wordfrequency/generated.go 67-75 and 44-49 *)
Definition counts_complete (c : wordfreq) : res wordfreq :=
  m <- encode_port {| po_port := port_counts; po_data := []; po_complete := true; po_next := false |} ;;
  Ok (sink_call KeepComplete (sink_call (KeepNext [] m)
    {| wf_table := wf_table c; wf_words_open := wf_words_open c; wf_counts_open := false; wf_sink := wf_sink c; wf_sink_open := wf_sink_open c |})).
(** transport/wasmrs/example/wordfrequency/generated.go 53-76 *)
Fixpoint counts_all (l : list (bytes * N)) (c : wordfreq) : res wordfreq :=
  match l with
  | [] => counts_complete c
  | wc :: l' => c' <- counts_next wc c ;; counts_all l' c'
  end.
(** [words.Next] and [words.Complete]; wordfrequency.go 22-29 with the function
    of rx/flux/response.go 3-17, called with RequestMax.  transport/wasmrs/example/wordfrequency/generated.go 107 *)
Definition words_next (w : bytes) (c : wordfreq) : wordfreq :=
  if wf_words_open c then
    {| wf_table := see_word (wf_table c) w; wf_words_open := true; wf_counts_open := wf_counts_open c; wf_sink := wf_sink c; wf_sink_open := wf_sink_open c |}
  else c.
(** transport/wasmrs/example/wordfrequency/generated.go 110, 115 *)
Definition words_complete (c : wordfreq) : res wordfreq :=
  if wf_words_open c then
    let c' := {| wf_table := wf_table c; wf_words_open := false; wf_counts_open := wf_counts_open c; wf_sink := wf_sink c; wf_sink_open := wf_sink_open c |} in
    if wf_counts_open c then counts_all (arrange (wf_table c)) c' else Ok c'
  else Ok c.
(** What arrives on [in]: a payload or the completion; the handler has no
    callback for an error.  transport/wasmrs/example/wordfrequency/generated.go 91-117 *)
Inductive wfin := InNext (data meta : bytes) | InComplete.
(** transport/wasmrs/example/wordfrequency/generated.go 91-117 *)
Definition wf_step (i : wfin) (c : wordfreq) : res wordfreq :=
  match i with
  | InComplete => words_complete c
  | InNext data meta =>
      port <- decode_port meta ;;
      if bytes_eqb (po_port port) port_words then
        if po_next port then
          match t_decode tr_string data with
          | Ok w => let c' := words_next w c in if po_complete port then words_complete c' else Ok c'
          | Err e => Ok (sink_call (KeepError e) c)
          | Panic => Panic
          end
        else if po_complete port then words_complete c else Ok c
      else Ok c
  end.
(** transport/wasmrs/example/wordfrequency/generated.go 91-117 *)
Fixpoint wf_run (l : list wfin) (c : wordfreq) : res wordfreq :=
  match l with [] => Ok c | i :: l' => c' <- wf_step i c ;; wf_run l' c' end.
End Words.
