# Formal model of wasmrs-go in Rocq

Target: `/repo` (WasmRS/wasmrs-go), read as text. Prover: Coq 8.16.1, standard library only.

## 1. Method

* Each Go function that matters for a property becomes a small total Gallina function in a
  `*Model.v` file. The comment on every definition cites the file and lines it models and states
  every simplification.
* Specifications are written separately, in `Spec*` definitions that do not call the model's
  helpers (for example: the list of frames a byte stream stands for, a queue as a plain list, a
  map as an association list).
* Proofs are in `*Proofs.v`. The property theorems are in `*Props.v`, each followed by an
  `Example` showing a concrete non-trivial case that satisfies its hypotheses, and by
  `Print Assumptions`.
* When the faithful model falsifies what a user would expect, the property states the exact truth
  and the failing case is proved as a theorem with suffix `_refuted` or with an explicit
  counter-behaviour, and listed as a finding (section 5).

## 2. Modelling conventions

| Go | model |
|----|-------|
| `byte` | `N`, well-formedness `Forall (fun b => b < 256)` where it is needed |
| `uint16/32/64` | `N`, with wrap-around written explicitly (`mod 2^32`) |
| `int64`, `time.Duration` | `Z` |
| `[]byte`, `string` | `list N` (nil kept apart from empty only where the code can tell) |
| panic, error | constructors `Panic`, `Err e` of `res` |
| slices that alias | explicit memory (only in the read-buffer property) |
| goroutines, channels | explicit step relation or step function over a state, quantified over all schedules |
| `sync.Mutex`, `atomic` | the critical section is one step |
| handlers, user callbacks, clock, random source | arbitrary functions / arbitrary input lists |

## 3. Plan per property

Properties are in `properties.jsonl`. "How" names the main proof technique.

| id | model | how |
|----|-------|-----|
| C01 | header packing with shifts and masks | bit-vector lemmas on `N` (`N.bits_inj`, `shiftr_div_pow2`) |
| C02–C06 | encoders as writers into a buffer, decoders as parsers | round trip by computation on `app`; big-endian lemmas |
| C07, C08 | same encoders run on an arbitrary buffer | writer invariant: prefix written, suffix kept |
| C09–C11 | `Fragment`, `splitPayloads` with u32 arithmetic; loop with fuel, fuel shown sufficient | induction on remaining length |
| C11 | loop iterated n times never leaves the loop | induction on n |
| C12 | decoders | case analysis on lengths |
| C13 | u24 | arithmetic |
| C14–C16 | scanner state machine over a list of chunks | induction on chunks with an invariant relating consumed bytes and produced frames |
| C17 | read buffer as mutable memory, frames as (offset, length) views | witness trace plus "intact until next read" lemma |
| C18 | two writers as interleaved step lists | witness schedule; serialised case by induction |
| C19 | reader goroutine / dispatcher goroutine over the unbounded buffer | invariant over all schedules |
| C20–C22 | framing loops | induction on frames |
| C23, C24 | counter state machine | arithmetic, parity |
| C25, C26 | channel of capacity 1 plus backlog plus closed flag | refinement to a list queue, over all step sequences |
| C27, C28 | serialiser and parser | induction on the table |
| C29–C31 | registry as lists and maps | invariant over operation histories |
| C32 | map | invariant over histories |
| C33 | codec | computation |
| C34, C35 | linked list as a heap of nodes | representation invariant; witness by induction |
| C36–C48 | reader (offset, error), encoder (buffer writer), sizer, decoder | case analysis on formats; structural induction on value trees |
| C81 | `SliceResponse` in the flux machine; its goroutines step by step with the mutex | invariant with the phases of its loop |
| C49–C58 | mono / flux / flow as state machines emitting event traces | invariants over call sequences |
| C59–C63 | proxy and handler as state machines over frames | invariants over frame histories |
| C78, C79 | the dispatch of host and guest, each a state machine over frames and table | invariants; refinement of the guest to the machine of C59–C63 |
| C82, C83 | the same machines; demand events per served stream | invariant tying events, pending goroutines and frames received |
| C84 | the two loops of an instance and its bounded channels, arbitrary guest and callbacks | invariants, termination measures |
| C85 | transforms as pairs of functions between values and payload data | composition of C36-C48, permutations |
| C86 | folds over the callbacks a blocked subscription receives, on the machines of C49-C55 | invariant by steps: a call of Finally is alone in its step |
| C87 | the server as a state machine, one step per critical section, sessions as opaque identities | one inductive invariant; stability of what is closed or refused |
| C88 | the flux machine with the processor's store; users that push, announce, subscribe from goroutines and callbacks | invariant relating the calls of every subscription to the routed pushes, with the step in progress at the top of the stack |
| C89 | codecs of records given by a table of fields; tables for GreetingRequest, CounterRequest, Strings, WordCount | induction over the fields on the wire; writer and reader with different tables; the model of C47 is an instance |
| C90 | the word frequency component and its handler over the inputs of the channel | invariant of the count table against `count_occ`; the first relevant message decides the answer |
| C91 | the one-value components (Concat, Greeter) over the inputs of the channel, any decoder and function | the first relevant message decides; composition of the flow example |
| C92 | nillable reads and writes, `DecodeNillable`, the helpers of `convert` on (value, error) pairs | first byte of every encoding; case analysis over what a read returns |
| C93 | generated clients and wrappers for any record and result type, on top of the joined ends of C64; the mono of the call mapped with the decoding | composition of C31, C64, C89, C85 and the invariant behind C55 |
| C94 | streams and channels over the joined ends of C64: what reaches the flux behind a call against what the other end wrote on its stream, then joined with the responder's subscription (C62) and the processor (C88) | a per-stream invariant over the histories of one end (`stream_ok`), then the invariant of the joined ends |
| C95 | the other direction of a channel: what reaches the input of the invoked handler against what the caller's input emitted | a per-invocation invariant of the serving end (`channel_ok`), an invariant that ties demand to invocations (`pull_ok`), and the moment of the invocation in the joined run |
| C96 | typed streams: the service's flux through `Encode`, the wire, and `Decode`, against the service's flux; which service is invoked and with which record | C54 on both sides (`mapped_seen`, `typed_frames`), C94 between them, C89/C93 for the record |
| C97 | typed channels: the same for the caller's input; the channel's output is C96 | C54 on both sides, C95 between them |
| C98 | host or guest as `host_step`/`guest_step` (C78); what the connections of C59, C60 and C94 guarantee to a caller, for calls made by either WebAssembly end | the invariants of C59, C60 and C94 in one (`calls_ok`), carried through `host_inv`/`guest_inv`; what a fragment, an import or an export does to the trace is `calm` |
| C99 | a host and a guest (C78, C98) joined by the shared memory (C20, C22): request-response calls in both directions, the outcome of the selected handler against what the caller's subscriber sees | invariant of the joint state (`wasm_ok`: both ends are histories of C98, every frame written has a reason, every frame handled was written); the frame is encoded into a buffer of any content, taken out and parsed |
| C100 | streams and channels over the same joint state: what reaches the flux behind a call against what the other end wrote, which handler is invoked, then joined with the responder's subscription (C62) and the processor (C88) | as C94, from `wasm_ok` and C98 |
| C101 | the modules of a mesh (C66, C67), every instance with its guest as in C99: what comes back of a guest's call of an imported operation, and of a call through the mesh, against the handlers the modules registered for that operation | the handler of an import answers what a call of the host on the linked instance got in some execution of that instance (`relays`); C66/C67 for the link, C29/C30 for the numbers, C99 twice |
| C102 | a client that the host makes for its guest: position among the host's imports against the name | C30 for the position, C99 for the call; `_refuted` with an execution |
| C103 | typed clients and wrappers (C93) as modules of a mesh (C101), and the example's three modules: the typed outcome against the services of the exporters | C101 for the payload, C89/C93 for the records and results; `NewCustomer` as the two typed calls in sequence, with the errors of `Get` dropped |
| C104 | the mono of a remote call (`proxy/mono.go`) with everything its user can do: subscribe, await (`Async`, `Notify`, `Get`), `Block`, on the mono itself and on the typed one of `mono.Map`; requests sent, notifications, returns against the sequence of uses | one state machine; an invariant for all states (nothing is ever stored in the processor), then an invariant per kind of use by induction over the sequence |
| C105 | streams and channels across a mesh: an execution of the caller's instance and one of the exporter's, tied by the destination that is the handler of the import and by the host's subscriber of its flux; told values against the calls on the sink of the exporter's handler | C66 for the handler of the import, C100 at both instances, C62 and C88 for the two fluxes between; beginnings of call lists composed |
| C106 | the flux of a remote stream as its user sees it: a machine of subscriptions, `Async`, `Notify`, both ways to block, requests, goroutines and arrivals; the frames it sends and what its readers are given against the steps | invariants over all runs (the first request, who can request, an awaited stream with one subscriber); runs without arrivals; induction over the values of a blocked read |
| C107 | the input of a channel call between a host and a guest, over the joint state of C99: what reaches the input of the invoked handler against what the caller's end wrote and what its input emitted | as C95, with `channel_ok` proved of both ends of the wasm transport; the guest invokes in the step that receives the request, so no demand hypothesis is needed there |
| C108 | `Just`, `Error` and any stack of `Map` on top, used again and again by subscriptions, `Get`, `Block` and `Notify`; a relation says how a value passes the transforms | induction over the stack (any subscription) and over the uses |
| C109 | typed streams and channels between a host and a guest: C96 and C97 over the joint state of C99, with the numbers a host's clients use (C102) | C100 and C107 composed with the codecs and the mapped fluxes of C96 |
| C110 | the input of a channel across a mesh: caller's guest, caller's host, the handler's input as the input of the host's call on the exporter's instance, the exporter's guest | C107 at both instances, C88 for the subscription in between, C105 for who is invoked |
| C111 | typed streams and channels across a mesh: C96 and C97 over two instances | C105 and C110 composed with the codecs and the mapped fluxes of C96 |
| C64 | two ends as one transition system joined by the byte stream of each direction | joint invariant (every frame written has a reason, frames received are a prefix of those written, nothing arrives on a stream before it was opened), then C16, C60, C61 |
| C65 | counters and channels of the host instance | invariant over schedules |
| C66, C67 | link tables | invariant over loads |
| C68 | section parser over LEB128 | induction on sections |
| C69–C71 | hex codecs, parser | sweep over bytes lifted by `forallb_forall`, induction |
| C72, C80 | clock state machine, field layout | invariant, arithmetic |

## 4. Trusted base

* Coq 8.16.1 kernel (including `vm_compute`).
* `Print Assumptions` is run after every property theorem. Every theorem so far prints
  "Closed under the global context": no axioms, neither own nor from the standard library.
  `coqchk -o` also lists the seven parameters of `Coq.ssr.ssrunder.Under_rel`, a module of the
  standard library loaded with `lia`'s dependencies and used by no theorem here.
* The hand translation from Go to Gallina, as cited in the comments of each definition.
* Go semantics assumed: wrap-around of unsigned arithmetic, slice bound checks panic, `copy`
  copies the shorter length, channels and mutexes as in the memory model, map iteration in an
  arbitrary order.

### Modelled and not modelled

| module | modelled | not modelled |
|--------|----------|--------------|
| `internal/frames` | header, all frame encoders/decoders, sizes, `Fragment`, `splitPayloads` | `String()` methods, allocation |
| `internal/buffer` (unbounded) | `Put`, `Load`, `Close`, backlog and channel | the memory released by dead slices |
| `transport/rsocket`, `internal/socket` | length-prefixed scanner, read buffer aliasing, `Send`/`Flush`, session goroutines | `net.Conn` itself (arbitrary chunks and errors), deadlines, TLS |
| `transport/wasmrs/guest` and `transport/wasmrs/host` framing | batch splitting in both directions, shared buffers, stream ids | the WebAssembly engine, memory growth by the engine |
| `operations`, `invoke`, `handler registry`, live instances, `PortIO` | tables, parser and serialiser, registration histories | generics dispatch at the type level |
| `proxy.Lookup` | linked list as a heap of nodes | data races (each method is one step) |
| `msgpack` | encoder, sizer, decoder, `Skip`, `ReadAny`, generic slice/map helpers, `codec.ToBytes` | float arithmetic other than bit patterns (`float64 -> float32` narrowing is an arbitrary function), RFC 3339 parsing (arbitrary function), string aliasing of the input (`UnsafeString`) |
| `example/greeter` | `GreetingRequest` encode/decode | the service itself |
| `rx/mono` | `Create`, all sink calls, `Notify`, `Get`, `Map`, `Processor`, `Block` (C86); any number of goroutines, callbacks may call back in | interleaving inside a call (there are no locks) |
| `rx/flux` | `Create`, all sink calls, `Request`, `Cancel`, `Notify`, `Map`, `FromSlice`, `SliceResponse`, `Processor` (C88), `Block` (C86); host (requests in goroutines) and WebAssembly (synchronous) | interleaving inside a call (but for the request goroutines of the two slice sources with their mutex, `RespModel.v`), `Subscriber.Close` (not reachable) |
| `transform` | all transforms and generic encoders (C85; `Any`, `CodecEncode` are C43, C47), `FluxToVoid`, `FluxToMono`, `MonoToFlux` (C58) | time formatting and parsing (arbitrary functions), nil slices |
| `rx/flow` | `Steps`, `next`, `check`, the awaited group, callbacks arriving in any order and from inside a step | data races on the counters (each callback is atomic) |
| `handler`, `proxy` | `HandleFrame`, the four request handlers, `RequestResponse`/`FireAndForget`/`RequestStream`/`RequestChannel`, `streamMono`, `streamFlux`, stream registration and removal (with the linked-list table as it is), goroutines in any order | interleaving inside one call, fragments (ignored by the code), contexts |
| `transport/wasmrs/host/instance.go` | the request counter, `reduceActiveRequests`, `Close`, the sends of every request goroutine, one step per atomic access | contents of the frames (the same handlers as in `handler`), stream table, a second `Close` |
| `transport/wasmrs/host/instance.go` (frames), `host/caller.go` | `recvOne` with its request handlers, the stream tables, the calls of the host | fragments (the code stores and never reads them), contexts |
| `transport/wasmrs/host/instance.go` (loops) | `SendFrame`, `sendLoop`, `hostSend`, `recvLoop` over channels of any capacity | contents of the frames, `Close` (C65) |
| `transport/wasmrs/guest/guest.go` (frames), `guest/caller.go` | the same for the guest, where everything runs at once | fragments, the exports called by the engine |
| `transport/wasmrs/mesh` | `linkOperations`, `linkOperation`, `LoadModule` apart from compiling, all lookups and forwarding, the handler tables of the instances | printing, the delay before a replaced instance is closed |
| `transport/wasmrs/customsections` | `Read`, `decodeUTF8`, `decodeCustomSection` | error texts; the LEB128 decoder of the library wabin is taken as the WebAssembly specification defines it, `utf8.Valid` is an arbitrary function |
| `types/uuid` | `Parse`, `ParseBytes`, `UnmarshalBinary`, `String`, `URN`, `Version`, `Variant`, random UUIDs with the pool, `getTime`, `setClockSequence`, `Time`, `ClockSequence`, `UnixTime` | `MustParse`, `Must`, `SetRand`, names of versions and variants; lower-casing of the nine prefix bytes is that of ASCII |
| `transport/rsocket/tcp_transport.go` | `Listen`, `Close`, the daemon, `putTransport`, `removeTransport`, in any order; sessions become ready and end at any time | a second `Listen`, the unlocked write of `t.l`, what the sessions do (C19) |
| record codecs (`example/greeter/greeter.go` 23-63, `transport/wasmrs/example/greeting.go`, `counter.go`, `concat/generated.go`, `wordfrequency/generated.go`, `mesh/modules/*/types.go`) | `Decode` and `Encode` for any table of fields | the partly filled record after an error |
| word frequency (`transport/wasmrs/example/wordfrequency`) | `Process`, `makeWordCounts`, the channel handler, as run in a guest | `strings.ToLower` and `sort.Sort` are parameters (the second a permutation sorted by count); demand is unbounded (less than RequestMax messages fit in a guest) |
| one-value components (`transport/wasmrs/example/concat`, `example/greeter`, `cmd/fbp/host/main.go`) | the channel handlers, `Process`, the forwarding between the two | printing, the operation index (the example sends none) |
| `msgpack/convert` | all helpers | the conversions themselves (arbitrary functions) |
| typed clients and wrappers (`example/greeter/greeter.go`, `transport/wasmrs/example/greeting.go`, `mesh/modules/*/import.go`, `export.go`) | request-response methods and wrappers | streams and channels (next row) |
| typed stream and channel stubs (`transport/wasmrs/example/counter.go`, `uppercase.go`) | `Encode`/`Decode` as functions given to `flux.Map`, the responder's and the proxy's subscription through it | a panicking encoder |
| a host and a guest joined (`transport/wasmrs/host/instance.go` 151-219, `transport/wasmrs/guest/guest.go` 45-86, 498-533) | `WasmJointModel.v`: each end makes any step of `host_step`/`guest_step`; frames cross in the order in which they were sent, each through the buffer of its direction | the queues between the goroutines (C84 has them: in order, and the ways in which they block), frames larger than the buffer (C22), handlers registered after the start |
| calls between modules (`transport/wasmrs/mesh/mesh.go` 237-293) | `MeshCallModel.v`: `relays` for request-response; every instance runs as in `WasmJointModel.v`, with the handlers of its imports answering what the linked instance's calls got | the timing between instances (an answer may be that of any execution of the linked instance, which includes the real one), streams between modules (C100 has each of the two hops), replaced modules (C67) |
| numbers of clients on an instance (`transport/wasmrs/host/caller.go` 15-29) | `HostClientModel.v` | |
| the modules of the mesh example (`transport/wasmrs/mesh/modules`) | `MeshTypedModel.v`: operations, services, `NewCustomer`, what the modules register | the flow of `NewCustomer` is C56's order; contexts |
| the mono of a remote call (`proxy/mono.go`, with `rx/mono/processor.go`, `rx/mono/mono.go` 101-247, `rx/mono/mono_host.go`) | `RemoteMonoModel.v`: `Subscribe`, `Async`, `Notify`, `Get`, `Block` and its goroutine, the typed mono around it | callbacks that call back in (C49, C50), `Cancel` (not offered), the wire (C60, C64, C99) |
| streams across a mesh (`transport/wasmrs/mesh/mesh.go` 279-293, `transport/wasmrs/host/instance.go` 485-512, 558-585) | `MeshStreamModel.v`: the call a destination makes, the frames the host writes for the caller | the flux given to a channel; how the demand of the caller travels to the exporter (any is allowed); chains of more than one destination (the theorem applies to each) |
| a remote stream as its user sees it (`proxy/flux.go`, `rx/flux/processor.go`, `rx/flux/flux.go`, `rx/flux/flux_host.go`) | `RemoteFluxModel.v`: subscribe, `Async`, `Notify`, `Block` as method and as function, requests and their goroutines, arrivals | `Cancel` (C52, C59), the input of a channel (C95), callbacks that call back in (C51, C88), interleavings inside one call |
| immediate monos (`rx/mono/mono.go` 37-93, 199-247, `rx/mono/mono_host.go` 33-50) | `ImmModel.v`: all methods of `Just`, `Error` and `Map` on top of them; transforms may keep state | callbacks and transforms that use the mono, panicking transforms |
| mesh channels, input (`transport/wasmrs/mesh/mesh.go` 287-293, `proxy/flux.go` 86-108) | what the subscription of a channel call's input makes of values, end and error; that the handler's input is handed to the call unchanged | who subscribes when: that the subscription was made before anything arrived is a hypothesis of C110 |
| two joined ends (`transport/rsocket/transport.go`) | frames of both directions over TCP, handed to `HandleFrame` in order | the Setup frame, concurrent senders (C18), connection errors |

## 5. Findings

Behaviour of the code that a user would not expect; each is a theorem (`_refuted`, or named) about
the faithful model.

Frames
* C04: the Follows flag of requests is never transmitted.
* C05: keep-alive and lifetime of 4.295 s or more are corrupted (nanoseconds truncated to 32 bits).
* C06: `Setup.Size` counts the resume token twice, so encodings end in zeros; a MIME type of 255
  bytes or a token of 65534 or 65535 bytes panics.
* C08: a buffer that is too short truncates the frame silently.
* C10: `RequestPayload.Fragment` does not clear `metadata`; it is sent again in the next fragment.
* C11: `splitPayloads` loops for ever for maximum sizes equal to the header and wraps below it.
* C12: decoders panic on short input.

Transports
* C15: frames that arrive together with EOF are lost.
* C17: a raw frame aliases the scanner's buffer and changes when the next chunk is read.
* C18: concurrent sends interleave on the connection.
* C20: a batch cut by the guest enqueues a zero-padded frame, then the host panics.
* C21: a frame shorter than 6 bytes kills the guest.
* C22, C73: payloads larger than the shared buffer kill the guest, or make the host send adjacent
  guest memory.
* C24: after 2^30 calls the server uses stream id 0.

Operations and tables
* C27: names of 65536 bytes or more are cut silently. C28: reserved sections of 65534/65535 wrap.
* C31: an import unknown to the peer resolves to index 0, that is, to the first operation.
* C32: live instances of a zero-size type share one handle.
* C33: `FlagNext` equals `FlagComplete`.
* C35, C74: `Lookup.Remove` never updates head and tail; streams closed in the order they were
  opened are all kept reachable, and `Size` becomes negative.

MessagePack
* C42: 255-byte arrays get a trailing zero byte; untyped times are written as nothing.
* C43: an untyped nil is written twice and shifts the following values; integer keys of different
  types merge.
* C44: `Skip` leaves half of a one-byte extension and refuses variable-length extensions,
  including timestamps the encoder writes.
* C45: a 6-byte message makes `Skip` (and so every generated record decoder) recurse for ever; a
  wrapping length panics.
* C46: type errors are not recorded, `Err()` misses them.
* C76: `Skip` of a truncated number reports success; truncated records decode.
* Not proved, seen while reading: `ReadAny`, `ReadSlice` and `ReadMap` allocate the announced
  length before reading (5 bytes can ask for 64 GiB); `ReadAny` panics on a map with a list as key.

Reactive types
* C49: a notification registered inside the error callback is told `SignalComplete`; a second
  subscription calls the notifications of the first one again; `Get` before the outcome panics.
* C55: when the mapping fails, `Finally` still reports `SignalComplete`; after a cancellation
  `Get` of a mapped mono maps a zero value.
* C52: `Cancel` of a flux subscription is not idempotent: every call runs the cancel action and
  `Finally`, also after completion; a notification registered after a cancellation is told
  `SignalComplete`.
* C54: an error of the mapping does not stop the source: later values, a completion and a second
  `Finally` follow the error.
* C58: an empty flux converted with `FluxToMono` leaves the mono without any outcome.
* C77: on WebAssembly `SliceResponse` gives `slice[0]` again and again to a subscriber that asks for
  one value at a time from `OnNext`; a negative request panics.
* C53: `FromSlice` keeps what is left of the slice in a variable shared by all subscriptions of the
  flux, but each subscription has its own mutex: the requests of two subscriptions can hand one value
  to both and lose another, or panic (`C53_two_subscriptions_refuted`).
* C56: a step that awaits an empty group stops the flow for ever, without an outcome.
* C57: a step that awaits only finished operations is repeated without bound; when it later awaits
  pending work, the following step is skipped, and the last step panics.

Remote calls
* C59: cancelling a stream sends a Cancel frame also after its completion; the input of a channel
  is still forwarded after completion; input produced before the first request is not sent.
* C60: a second subscription of a remote call sends the request again; when the peer closes the
  stream without an answer, the caller is never told (`C60_closed_stream_refuted`).
* C61: request-response and fire-and-forget handlers get the metadata without its 8-byte prefix,
  stream and channel handlers get all of it.
* C63: legal control frames panic an endpoint: Cancel (or any Payload or Error) on a served stream or
  on a finished fire-and-forget request, RequestN on a request-response call or on a call without
  input; a stream handler that returns `flux.Error`. The table entries of served streams are never
  removed, so the panics can be provoked at any later time.
* C65: closing an instance waits for ever after a request with too little metadata or a stream of an
  unknown operation, and can return early, after which the served request panics, in three ways
  (`C65_close_race_refuted`, `C65_cancelled_channel_refuted`, `C65_request_during_close_refuted`).
* C66: an import is linked to an export of another request type (`C66_request_type_ignored_refuted`);
  an import with index 2^32-1 panics.
* C67: after a file is loaded again, imports linked before keep calling the replaced instance, which
  is closed five seconds later, so every such call panics; exports that the new version dropped stay
  reachable and lead to the closed instance; forwarding overwrites the caller's metadata in place and
  panics for metadata of one to three bytes.
* C68: a requested custom section without content at the end of a module is reported as EOF.
* C70: the text form in braces accepts any two characters in place of the braces.
* C72: setting the clock sequence back to an earlier value repeats a pair of time and sequence.
* C78, C79: requests marked as fragments are never answered, neither by the host nor by a guest, and no
  error is reported (`C78_fragments_get_no_answer`).
* C82: the host does not register the streams it serves. RequestN and Cancel from the guest have no
  effect: the handler is asked for the initial demand only, so a source with more values never
  completes (`C82_slice_stops_at_the_initial_demand`), and it cannot be cancelled.
* C83: a RequestN that arrives before the goroutine of its request has registered the stream is
  dropped (`C83_early_demand_lost_refuted`); the guest, which serves at once, loses none.
* C84: the receive loop of the host runs callbacks that send, and the send loop waits for the guest,
  which waits for the receive loop. A guest call that passes 202 frames or more, each of which makes a
  callback send a frame (a channel that echoes its input, a call made for each value), stops the
  instance for ever (`C84_two_hundred_and_two_refuted`).
* C85: `transform.Int` and `transform.Uint` convert with `int(val)`; WebAssembly has 32-bit ints, so a host
  int such as 4294967301 arrives as 5 without an error (`C85_int_is_cut_refuted`). `transform.Time` writes
  text: `ReadTime` reads it, but a time written by `WriteTime` is refused by `transform.Time`
  (`C85_time_one_way_refuted`).
* C86: `flux.Block` closes its channel in Finally, and Finally can run twice, so the second close panics and
  the process is gone. It happens after a Cancel of an ended stream or a second Cancel
  (`C86_flux_block_cancel_crashes_refuted`), and on a mapped flux whenever the source sends a value that cannot
  be mapped and then ends: a peer that sends one undecodable payload and completes crashes a host blocked in
  `flux.Map(...).Block` (`C86_bad_value_then_end_crashes_refuted`). `flux.Block` on a flux without subscription
  dereferences nil (`C86_flux_block_entry`). `flux.Map(flux.Error(e), tx).Block` waits for ever
  (`C86_mapped_error_flux_hangs_refuted`). A mono that is cancelled leaves its blocked caller waiting for ever;
  calling `Block` after the Cancel returns the zero value without an error.
* C87: a TCP server that is closed before `Listen` can never be closed again: it listens for ever, takes every
  connection and leaves it open (`C87_close_before_listen_refuted`). A connection accepted while the server is
  being closed is never closed (`C87_refused_connections_leak_refuted`). Ended sessions stay in the server's
  table, since `onClose` needs a `*Transport` the acceptor never sees (`C87_ended_sessions_stay_refuted`), and a
  session without Setup leaves its goroutine waiting for ever (`C87_waiting_goroutine_leaks_refuted`).
* C88: the processor of a flux keeps nothing that is pushed before the first subscription, not even a completion
  or an error, so its subscriber may wait for ever (`C88_early_results_lost_refuted`); the processor of a mono
  does keep it (C50). A second subscriber is served only by announcements made after it subscribed.
* C90: since the flags for "value" and "end of port" are the same bit (C33), the first word a client sends also
  ends the input: the answer counts that word alone and all later words are dropped
  (`C90_later_words_lost_refuted`); every answer is flagged as the last one. An undecodable word after the first
  is not reported.
* C91: the handlers of Concat and Greeter have no callback for the end of their input, so if it ends or fails
  without a value the answer never ends (`C91_no_value_no_end_refuted`).
* C92: `convert.NillableString`, `NillableBool` and `NillableNumeric` panic on nil and on every failed read, the very
  cases they exist for (`C92_nil_conversion_panics_refuted`); `StringToTimePtr` returns a pointer together with an
  error.
* C93: `Greeting.Uppercase` (`transport/wasmrs/example/greeting.go` 43-47) sends no metadata, so every peer refuses the
  call whatever it exports (`C93_uppercase_refused_refuted`).
* C94: a channel handler that cancels its *input* sends a Cancel frame, which the caller's end takes for the end of the
  handler's *output*: the caller's flux completes and later values are dropped (`C94_input_cancelled_refuted`).
* C95: the input of a channel must not emit before it is asked to.  A value that arrives before the goroutine of the handler
  has registered its stream is rejected and lost (`C95_early_input_lost_refuted`); an input made with `flux.Just`-like sources
  emits as soon as the call is first requested from.  Cancelling the call completes the handler's input, so the handler cannot tell
  a cancelled call from one whose input has ended (`C95_cancel_completes_refuted`).
* C96/C97 hold for values that `Encode` accepts and `Decode` gives back.  `flux.Map` does not close its source when the function
  fails (`C54_mapping_error_terminates_refuted`), so a value that cannot be decoded in the middle of a typed stream gives the
  subscriber an error and Finally, and then the rest of the values.
* `Instance.ImportRequestResponse` and the like (`transport/wasmrs/host/caller.go` 15-29) number an operation by the registry of the host process instead of
  the guest's table: a client made by the host calls the guest's operation at the position of its name among the operations the host process has named so far.
  `C102_by_name_refuted` has an execution in which the client for one exported operation gets the answer of another. `C102_same_order_by_name` says when it is right.
* `NewCustomer` of the mesh example drops the errors of both `Get` calls (`transport/wasmrs/mesh/modules/customer/cmd/main.go` 33, 37): in a mesh without the
  concat module every customer is greeted with "Hello, " and no name, without the greeting module the result is the empty text; the caller never sees an error (last two parts of `C103_new_customer`).
* C104: `Block` of the mono that a remote call returns is the one of the mono inside it (`proxy/mono.go` 24-26 embeds the processor, and only `Subscribe` and `Async` send the request), so
  `caller.RequestResponse(ctx, p).Block()` sends nothing and waits for ever (`C104_block_never_returns`). The generated clients wrap the mono in `mono.Map`, whose `Block` subscribes and so works, but it
  sends the request again even if the call was answered before (`C104_typed_block`). `Block` on an awaited call loses the answer if it comes between the test and the goroutine: `Block` never returns,
  and `Get`, which worked, panics from then on (`C104_block_race_refuted`).
* C106: a remote stream can be read once. The processor hands its `OnSubscribe` to the first subscriber only (`rx/flux/processor.go` 16-22), so a second subscriber asks nobody for anything, is
  registered in place of the first, and never ends if the stream has (`C106_later_subscribers_send_nothing`, `C106_read_again_refuted`). The method `Block` of the flux that a remote call returns is
  the one of the flux inside: before anything has subscribed it dereferences a nil subscriber and panics (`C106_block_unsubscribed_panics`); after `Async` it never returns if the end arrives between
  its test and its goroutine (`C106_block_race_refuted`). The function `flux.Block` works on a stream that nobody has read (`C106_block_on_fresh`).
* C107: a guest's handler is invoked in the call that delivers the request (`transport/wasmrs/guest/guest.go` 261-429, no goroutine), so a host's input may emit before it is asked and nothing is lost
  (`C107_guest_input_end_to_end`). A host's handler is invoked in a goroutine, so a guest's input must wait to be asked: what arrives before is lost (`C107_host_early_input_lost_refuted`). Runs in
  which an end panics stop there: a value that arrives while the guest's handler has not subscribed to its input is such a panic (C63).
* C108: the monos of `Just` and `Error` never call `Finally` (`C108_finally_refuted`; those of `Create` do, C49). A mapped mono notifies with the signal of its source, so one whose transform fails
  still signals completion (`C108_signal_refuted`). Every subscription, `Get` and `Block` runs the transforms again (`C108_same_answer`), so two readers of one mono may be told different things if a
  transform keeps state (`C108_readers_agree_refuted`).
* `C110_early_input_lost_refuted`: input that reaches the caller's host before the goroutine
  with the handler of an import ran never reaches the exporting module of a mesh (the same
  race as `C107_host_early_input_lost_refuted`, `transport/wasmrs/host/instance.go`).
* Not stated as theorems: only the first Setup frame sets the operation table.
