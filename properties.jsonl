{"id": "C01", "title": "Frame header round trip", "statement": "Writing a frame header for a stream id, frame type and flag set and parsing it back returns exactly the same type and flags and the stream id with its top bit cleared, provided the type fits 6 bits and the flags fit 10 bits; so no flag ever leaks into the type or the stream id. Parsing any 6 arbitrary bytes always yields a stream id below 2^31, a type below 64 and flags below 1024.", "quantifier": "every 32-bit stream id, every 6-bit type, every 10-bit flag set, every 6-byte header", "why_tests_cant": "The domain has 2^48 headers and the interesting failures are single-bit overlaps between packed fields.", "anchors": ["internal/frames/frame_header.go: ResetFrameHeader, NewFrameHeader, ParseFrameHeader, StreamID, Type, Flag", "internal/frames/types.go: FrameFlag.Check"]}
{"id": "C02", "title": "RequestN, Cancel and Error frames survive the wire", "statement": "Encoding a RequestN, Cancel or Error frame into a buffer of its own Size() and decoding that buffer returns the same stream id (below 2^31), request count, error code and error text.", "quantifier": "every stream id below 2^31, every 32-bit count and code, every error text of any length", "why_tests_cant": "Unbounded message lengths and 2^63 numeric combinations.", "anchors": ["internal/frames/request_n.go: RequestN.Encode/Decode/Size", "internal/frames/cancel.go: Cancel.Encode/Decode/Size", "internal/frames/error.go: Error.Encode/Decode/Size"]}
{"id": "C03", "title": "Payload frame round trip", "statement": "Encoding a Payload frame into a buffer of Size() bytes and decoding it returns the same stream id, metadata, data, and Follows/Complete/Next flags, for every metadata shorter than 2^24 bytes and a total size below 2^32. The three flags are independent of each other and of the presence of metadata.", "quantifier": "every stream id below 2^31, all metadata below 16 MiB, all data, all 8 flag combinations", "why_tests_cant": "Unbounded byte strings and all combinations of flags with lengths.", "anchors": ["internal/frames/payload.go: Payload.Encode/Decode/Size"]}
{"id": "C04", "title": "Request frame round trip up to its documented normal form", "statement": "Encoding a request frame (response, fire-and-forget, stream, channel) and decoding it preserves frame type, stream id, metadata and data; the initial request count is preserved exactly for stream and channel and reads as 1 otherwise; Complete is preserved for channel and reads as true otherwise; the Follows flag of the sender is never transmitted and always reads back false.", "quantifier": "all four request types, every stream id below 2^31, metadata below 2^24 bytes, every data, flag and initial-N value", "why_tests_cant": "Needs all byte strings and all flag/type combinations; the lost flag is invisible to a test that only checks the fields it sets.", "anchors": ["internal/frames/request_payload.go: RequestPayload.Encode/Decode/Size"]}
{"id": "C05", "title": "Setup frame round trip without a resume token", "statement": "A Setup frame without a resume token decodes to the same versions, MIME types (up to 254 bytes each), metadata (below 2^24 bytes), data and lease flag, and to durations that are the original nanosecond count reduced modulo 2^32 and rounded down to milliseconds; therefore a keepalive or lifetime survives exactly if and only if it is a whole number of milliseconds below 2^32 ns (about 4.29 s).", "quantifier": "every Setup value without token, every duration, all MIME strings up to 254 bytes, all metadata and data", "why_tests_cant": "The wrap-around only shows for durations above 4.29 s (the defaults are 20 s and 90 s) and the MIME limit only at one length.", "anchors": ["internal/frames/setup.go: Setup.Encode/Decode/Size"]}
{"id": "C06", "title": "Setup frame with a resume token grows its data", "statement": "A Setup frame with a non-empty resume token of length k (k at most 65533) decodes to the same frame except that its data is followed by exactly k zero bytes, because Size() counts the token twice. With a 255-byte MIME string or a token of 65534 or 65535 bytes the decoder panics instead.", "quantifier": "every Setup with token, all token lengths and contents", "why_tests_cant": "A test with an empty token never sees it, and the exact count of stray bytes needs all lengths.", "anchors": ["internal/frames/setup.go: Setup.Size, Setup.Encode, Setup.Decode"]}
{"id": "C07", "title": "Frames write exactly Size() bytes", "statement": "For every frame kind, encoding into a buffer at least Size() bytes long never panics, writes only its first Size() bytes (all but the last k of them for a Setup with a k-byte token), and leaves every later byte of the buffer unchanged.", "quantifier": "every frame with total size below 2^32 and MIME, token and metadata lengths that fit; every buffer at least that large with any previous contents", "why_tests_cant": "Transports reuse one big buffer; over- or under-writing shows only with particular stale contents and lengths.", "anchors": ["internal/frames/payload.go: Payload.Encode/Size", "internal/frames/request_payload.go: RequestPayload.Encode/Size", "internal/frames/setup.go: Setup.Encode/Size", "internal/frames/error.go", "internal/frames/request_n.go", "internal/frames/cancel.go"]}
{"id": "C08", "title": "Encoding a Payload or Error frame into a short buffer truncates silently", "statement": "If the buffer holds the fixed part (header, length and metadata of a Payload; header and code of an Error) but not all data, Encode does not fail: it writes the frame cut off at the end of the buffer. If even the fixed part does not fit, Encode panics. These are the only two outcomes.", "quantifier": "every frame and every buffer length below Size()", "why_tests_cant": "Requires all pairs of frame size and buffer size.", "anchors": ["internal/frames/payload.go: Payload.Encode", "internal/frames/error.go: Error.Encode"]}
{"id": "C09", "title": "Payload fragmentation reassembles to the original and respects the limit", "statement": "When Fragment(max) of a Payload frame returns fragments (max at least 10, or at least 7 without metadata): concatenating the fragments' metadata and data gives back exactly the original metadata and data; every fragment's Size() is at most max; every fragment but the last has Follows set with Next and Complete clear; the last has Follows clear and carries the original Next and Complete; no fragment is empty; all carry the original stream id; and metadata bytes never follow data bytes.", "quantifier": "every payload with total length below 2^32 - 9 and every max frame size from the minimum up to 2^32-1", "why_tests_cant": "All payload lengths times all limits; boundary cases occur at every multiple of the fragment capacity.", "anchors": ["internal/frames/payload.go: Payload.Fragment", "internal/frames/util.go: splitPayloads"]}
{"id": "C10", "title": "Request fragmentation reassembles the data, respects the limit, and may duplicate metadata", "statement": "When Fragment(max) of a request frame returns fragments (max at least header + 4): the first is a request frame of the same type, stream id and initial-N with Follows set, the rest are Payload frames; concatenated data equals the original; concatenated metadata equals the original when it is empty or at least max - header - 3 bytes long, and otherwise equals the original twice; every fragment's Size() is at most max; all but the last have Follows set; only the last carries Complete (as in the original) and Next (set).", "quantifier": "every request frame with total length below 2^32 - 13 and every max frame size from the minimum up", "why_tests_cant": "All lengths times all limits.", "anchors": ["internal/frames/request_payload.go: RequestPayload.Fragment", "internal/frames/util.go: splitPayloads"]}
{"id": "C11", "title": "Fragmentation needs a minimum frame size", "statement": "Fragmenting terminates for a Payload frame if max frame size is at least 10 (7 without metadata). At max = 6 (data only) or max = 9 (with metadata) it never terminates: it produces empty fragments for ever. Below that it returns one single fragment holding everything, larger than the limit and marked as followed by another fragment that does not exist.", "quantifier": "every payload larger than the limit, at each of the critical limits", "why_tests_cant": "A test cannot observe non-termination; it has to be proved that no number of iterations is enough.", "anchors": ["internal/frames/util.go: splitPayloads", "internal/frames/payload.go: Payload.Fragment"]}
{"id": "C12", "title": "Frame decoders accept or panic exactly by length", "statement": "Decoding the body of a Payload or request frame either succeeds or panics, and it panics exactly when the body is shorter than its fixed fields or than the metadata length it announces; on success metadata and data together are exactly the remaining bytes of the body, in order.", "quantifier": "every header and every body of any length and content", "why_tests_cant": "Malformed input space is unbounded; fuzzing samples it.", "anchors": ["internal/frames/payload.go: Payload.Decode", "internal/frames/request_payload.go: RequestPayload.Decode", "internal/frames/request_n.go", "internal/frames/error.go"]}
{"id": "C13", "title": "24-bit length codec", "statement": "Every value up to 16777215 written as a 24-bit length reads back unchanged from exactly 3 bytes; every larger value is rejected with the exceed error (a panic in MustNewUint24) and nothing is written.", "quantifier": "every 32-bit value and every 3-byte sequence", "why_tests_cant": "2^32 inputs with a boundary in the middle.", "anchors": ["internal/u24/u24.go: NewUint24, MustNewUint24, WriteUint24, ReadUint24ToInt, AsInt, NewUint24Bytes"]}
{"id": "C14", "title": "TCP frame reader recovers the frame sequence under any chunking", "statement": "If a peer writes a sequence of frames (each length prefixed, body between 6 and 2^24-1 bytes) and the connection delivers these bytes in any pieces whatsoever, then ends, the reader returns exactly these frame bodies in order and then end-of-stream; a trailing partial frame is never returned.", "quantifier": "every finite sequence of frames, every way of cutting the byte stream into read results", "why_tests_cant": "The number of chunkings is exponential in the stream length.", "anchors": ["transport/rsocket/decoder.go: doSplit, LengthBasedFrameDecoder.Read", "transport/rsocket/tcp_conn.go: TCPConn.Write"]}
{"id": "C15", "title": "Data arriving together with end-of-stream is lost", "statement": "If the connection reports end-of-stream in the same read that delivers the last bytes (which Go readers may do), then every complete frame still buffered at that moment is dropped and the reader reports a clean end-of-stream.", "quantifier": "every sequence of frames delivered in the last read", "why_tests_cant": "Depends on how the runtime pairs data with EOF; the loss must be shown for all such reads.", "anchors": ["transport/rsocket/decoder.go: doSplit (eof branch)"]}
{"id": "C16", "title": "Frame dispatch by type", "statement": "Reading a frame written by the peer's connection yields a frame of the same kind with the same decoded content for Setup (no token), all four request types, RequestN, Cancel, Payload and Error; any other frame type is reported as an unknown frame and never delivered.", "quantifier": "every frame the library can send and every possible 6-bit type value", "why_tests_cant": "Composition of encoder, length prefix, scanner and decoder over all frames.", "anchors": ["transport/rsocket/tcp_conn.go: TCPConn.Read, TCPConn.Write"]}
{"id": "C17", "title": "Bytes of a received frame may change when the next frame is read", "statement": "The metadata and data returned by TCPConn.Read alias the connection's read buffer, so reading a later frame can overwrite the payload of an earlier one that has not been processed yet. The payload is guaranteed intact only until the next Read on that connection.", "quantifier": "every history of reads on one connection; existence of a history in which a delivered payload changes", "why_tests_cant": "A race between the reading loop and the dispatching goroutine; tests that process each frame before the next read never see it.", "anchors": ["transport/rsocket/tcp_conn.go: TCPConn.Read", "transport/rsocket/decoder.go: LengthBasedFrameDecoder.Read", "transport/rsocket/transport.go: Transport.Start, loopReadBuffer"]}
{"id": "C18", "title": "Concurrent sends on one connection are not atomic", "statement": "If sends on a connection are serialised, the peer receives exactly the sent frames in order. If two sends overlap, there is a schedule in which the length prefixes and bodies interleave and the peer receives byte sequences that neither sender sent.", "quantifier": "all sequences of serialised sends; all interleavings of two concurrent sends", "why_tests_cant": "Needs every interleaving of concurrent writers.", "anchors": ["transport/rsocket/tcp_conn.go: TCPConn.Write", "transport/rsocket/transport.go: Transport.Send", "handler/handler.go: HandleFrame (go statements)"]}
{"id": "C19", "title": "Server session starts only after a Setup frame", "statement": "A server connection delivers no frame to its handler before a Setup frame: if the first frame is not Setup, or cannot be read, the session ends without delivering anything and the connection is closed. Afterwards frames reach the handler in exactly the order they were received, none lost, none duplicated.", "quantifier": "every sequence of received frames and every interleaving of the reading and the dispatching goroutine", "why_tests_cant": "Requires all schedules of the two goroutines over the unbounded buffer.", "anchors": ["transport/rsocket/transport.go: Transport.Start, loopReadBuffer, ReadFirst", "internal/buffer/unbounded.go"]}
{"id": "C20", "title": "Host splits guest batches into the frames the guest wrote", "statement": "When a guest writes any number of length-prefixed frames (each below 2^24 bytes) into the shared buffer and signals the host, the host queues exactly those frames in order. A batch cut in the middle of a length prefix or body panics. A batch announced beyond the end of the guest's memory is ignored as a whole.", "quantifier": "every sequence of frames of any lengths", "why_tests_cant": "Unbounded number and sizes of frames.", "anchors": ["transport/wasmrs/host/instance.go: hostSend", "transport/wasmrs/guest/guest.go: doSendFrame"]}
{"id": "C21", "title": "Guest splits host batches into the frames the host wrote", "statement": "When the host writes length-prefixed frames filling the first n bytes of the guest buffer and signals n, the guest processes exactly those frames in order and ignores whatever stale bytes follow in the buffer.", "quantifier": "every sequence of frames that fits the buffer, every stale buffer tail", "why_tests_cant": "Stale contents and lengths are unbounded.", "anchors": ["transport/wasmrs/guest/guest.go: GuestSend", "transport/wasmrs/host/instance.go: sendLoop"]}
{"id": "C22", "title": "Frames larger than the shared buffer break the guest", "statement": "A frame sent to a guest is delivered intact whenever its size is at most buffer size - 3. A larger Payload frame is not rejected: the host writes it cut off and signals more bytes than the buffer has, and the guest panics.", "quantifier": "every frame size and every buffer size", "why_tests_cant": "All size pairs; the default buffer is 16 KiB so small tests pass.", "anchors": ["transport/wasmrs/host/instance.go: sendLoop", "transport/wasmrs/guest/guest.go: GuestSend"]}
{"id": "C23", "title": "Client stream ids", "statement": "The ids handed out by a client are 1, 3, 5, ... : odd, non-zero, below 2^31 and pairwise distinct for the first 2^30 calls under any concurrent schedule of callers; first-loop is reported true for exactly these calls, after which ids repeat with period 2^30.", "quantifier": "every number of calls and every interleaving of concurrent callers", "why_tests_cant": "2^30 calls and all schedules.", "anchors": ["internal/socket/stream_id.go: ClientStreamIDs.Next"]}
{"id": "C24", "title": "Server stream ids", "statement": "The ids handed out by a server are 2, 4, 6, ... : even, below 2^31 and pairwise distinct for the first 2^30 calls, never equal to a client's id; the first 2^30 - 1 are non-zero, but call number 2^30 returns the reserved id 0 and still reports first-loop true.", "quantifier": "every number of calls and every interleaving of concurrent callers", "why_tests_cant": "The wrong id appears only on call 1073741824.", "anchors": ["internal/socket/stream_id.go: ServerStreamIDs.Next"]}
{"id": "C25", "title": "Unbounded buffer is a lossless FIFO queue", "statement": "For every interleaving of Put calls with a reader that receives and then calls Load, the values received are exactly the values accepted by Put, in order of acceptance, with nothing lost, duplicated or reordered; a Put is accepted if and only if it happens before Dispose.", "quantifier": "every interleaving of any number of Put, receive, Load and Dispose steps", "why_tests_cant": "All schedules and all lengths.", "anchors": ["internal/buffer/unbounded.go: Put, Load, Get, Dispose"]}
{"id": "C26", "title": "Unbounded buffer never strands values", "statement": "A reader that calls Load after each receive always finds a value ready whenever accepted values remain undelivered, and after Dispose it receives every remaining value and then, and only then, sees the channel closed.", "quantifier": "every interleaving of Put, receive, Load and Dispose", "why_tests_cant": "A liveness property over all schedules.", "anchors": ["internal/buffer/unbounded.go: Load, Dispose, close"]}
{"id": "C27", "title": "Operation table round trip", "statement": "Serialising any operation table and reading it back returns the identical table (types, directions, indexes, namespaces, names, order), provided names are shorter than 65536 bytes and the total size is below 2^32.", "quantifier": "every table of any length with any byte-string names up to 65535 bytes", "why_tests_cant": "Unbounded tables and strings.", "anchors": ["operations/operatons.go: Table.ToBytes, FromBytes"]}
{"id": "C28", "title": "Operation table reader rejects foreign input and tolerates reserved fields", "statement": "Input not starting with the magic bytes or carrying a version other than 1 is rejected with an error. A table in which every operation carries any reserved block of up to 65533 bytes reads back the same operations. Any strict prefix of a serialised table makes the reader panic rather than return a table.", "quantifier": "every byte string; every table with every choice of reserved blocks; every truncation point", "why_tests_cant": "All truncation points of all tables.", "anchors": ["operations/operatons.go: FromBytes"]}
{"id": "C29", "title": "Registered handlers are dispatched by their advertised index", "statement": "After any sequence of Export and Import calls, every operation the operation table advertises as exported carries an index which, when used as operation id, selects exactly the handler registered with that namespace, name and kind; ids not advertised select no handler.", "quantifier": "every history of registrations over all four kinds", "why_tests_cant": "All registration histories and orders.", "anchors": ["invoke/handlers.go: Export*, Get*Handler, GetOperationsTable, convertOperations"]}
{"id": "C30", "title": "Import indexes are stable and injective", "statement": "Importing the same namespace and operation again always returns the index returned the first time; different operations of one kind get different indexes; the operation table advertises exactly the imported operations with these indexes; imports of one kind never disturb other kinds or exports.", "quantifier": "every history of imports and exports (fewer than 2^32 imports)", "why_tests_cant": "All histories.", "anchors": ["invoke/handlers.go: Import*"]}
{"id": "C31", "title": "A peer's operation resolves to the handler it registered", "statement": "If one side registers handlers and sends its serialised operation table, then on the other side importing a registered (namespace, name) of a kind returns the index of the first handler registered under it, so calls dispatch to that handler; importing an unknown operation returns 0, which is indistinguishable from the first handler of that kind.", "quantifier": "every registration history and every imported name", "why_tests_cant": "Composition of registry, serialisation and lookup over all histories.", "anchors": ["handler/caller.go: Import*", "handler/handler.go: HandleFrame (Setup)", "operations/operatons.go", "invoke/handlers.go"]}
{"id": "C32", "title": "Live instance handles", "statement": "For every sequence of Put, Get and Remove: a handle returned by Put yields its instance until it is removed, Remove succeeds exactly once per handle, unknown or removed handles are reported as absent, and handles of simultaneously live instances are distinct.", "quantifier": "every operation history, assuming only that the allocator never returns an address still in use", "why_tests_cant": "All histories.", "anchors": ["invoke/instances.go: LiveInstances.Put/Get/Remove"]}
{"id": "C33", "title": "Port messages round trip except that next and complete are conflated", "statement": "A port message decodes to the same port (shorter than 65536 bytes) and data; the decoded Next and Complete flags are both true if either was set, so a completed port and a port with a value cannot be told apart.", "quantifier": "every port name below 65536 bytes, every data, all flag combinations", "why_tests_cant": "All names and data.", "anchors": ["invoke/portio.go: PortIO.Encode/Decode, FlagNext, FlagComplete"]}
{"id": "C34", "title": "Stream table behaves as a map while its oldest entry stays", "statement": "For every history of Add, Remove and Get in which the oldest entry is never removed and ids are added at most once while present, Get returns exactly the stream added under that id and not since removed, and Size is the number of present streams.", "quantifier": "every history of operations on the stream table", "why_tests_cant": "All histories of a pointer structure.", "anchors": ["proxy/lookup.go: Lookup.Add/Remove/Get/Size"]}
{"id": "C35", "title": "Removing the oldest stream does not remove it", "statement": "After removing the oldest stream of the table, Get still returns it (and its successor can then not be removed either), while Size has been decremented; repeating the removal drives Size to any negative number.", "quantifier": "every table content; every number of repeated removals", "why_tests_cant": "Unbounded histories; Size drifts only over long runs.", "anchors": ["proxy/lookup.go: Lookup.Remove"]}
{"id": "C36", "title": "MessagePack integers round trip", "statement": "Writing any signed integer with WriteInt8/16/32/64 and reading it with a signed reader that can hold it returns it unchanged and consumes exactly the bytes written; the encoding is the shortest signed MessagePack form. A narrower reader that cannot hold the value reports an overflow error instead of wrapping. Every other signed MessagePack form of the value is read as well.", "quantifier": "every 64-bit signed value, every reader width, every trailing input", "why_tests_cant": "2^64 values with many format boundaries.", "anchors": ["msgpack/encoder.go: WriteInt8..WriteInt64", "msgpack/decoder.go: ReadInt8..ReadInt64"]}
{"id": "C37", "title": "MessagePack unsigned integers round trip", "statement": "Writing any unsigned integer and reading it with the matching unsigned reader returns it unchanged and consumes exactly its bytes. The unsigned reader also accepts every non-negative value written by the signed writer; the signed reader rejects every value above 127 written by the unsigned writer.", "quantifier": "every 64-bit unsigned value, every trailing input", "why_tests_cant": "2^64 values.", "anchors": ["msgpack/encoder.go: WriteUint8..WriteUint64", "msgpack/decoder.go: ReadUint8..ReadUint64, ReadInt64"]}
{"id": "C38", "title": "MessagePack strings and byte arrays round trip", "statement": "Writing any string or byte array shorter than 2^32 bytes and reading it back returns identical bytes and consumes exactly what was written; a nil byte array is distinguished from an empty one by the nillable reader.", "quantifier": "every byte string below 2^32 - 5 bytes, every trailing input", "why_tests_cant": "Unbounded strings, four length classes.", "anchors": ["msgpack/encoder.go: WriteString, WriteByteArray, WriteNillableByteArray", "msgpack/decoder.go: ReadString, ReadByteArray, ReadNillableByteArray"]}
{"id": "C39", "title": "MessagePack bool, nil and floats round trip", "statement": "Booleans and nil round trip; every 64-bit and 32-bit float bit pattern round trips bit for bit.", "quantifier": "both booleans, every 2^64 and 2^32 bit pattern", "why_tests_cant": "All bit patterns including NaN payloads.", "anchors": ["msgpack/encoder.go: WriteBool, WriteNil, WriteFloat32, WriteFloat64", "msgpack/decoder.go: ReadBool, ReadFloat32, ReadFloat64"]}
{"id": "C40", "title": "MessagePack timestamps round trip", "statement": "Writing any instant and reading it back returns the same seconds and nanoseconds, using 4, 8 or 12 payload bytes, and consumes exactly the bytes written.", "quantifier": "every 64-bit seconds value and every nanosecond below 10^9", "why_tests_cant": "2^64 x 10^9 instants with three format boundaries.", "anchors": ["msgpack/encoder.go: WriteTime, encodeTime", "msgpack/decoder.go: ReadTime, decodeTime, extHeader, parseExtLen"]}
{"id": "C41", "title": "Sizer predicts the encoder exactly", "statement": "For every sequence of write operations other than a byte array of exactly 255 bytes and untyped time values, the sizer's length equals the number of bytes the encoder writes, so encoding into a buffer of that size fills it exactly and reports no error.", "quantifier": "every finite sequence of write operations with any arguments", "why_tests_cant": "All sequences and all argument sizes.", "anchors": ["msgpack/sizer.go", "msgpack/encoder.go", "msgpack/codec.go: ToBytes"]}
{"id": "C42", "title": "Where the sizer and the encoder disagree", "statement": "In general codec.ToBytes returns the bytes the encoder wrote followed by as many zero bytes as the sizer over-counts. A byte array of exactly 255 bytes is over-counted by one byte; an untyped time value is announced as 6, 10 or 15 bytes and the encoder writes none, without an error.", "quantifier": "every finite sequence of write operations; every 255-byte array; every time value", "why_tests_cant": "One length out of 2^32.", "anchors": ["msgpack/sizer.go: writeBinLength, WriteAny", "msgpack/encoder.go: WriteAny"]}
{"id": "C43", "title": "Untyped values round trip", "statement": "Every tree of booleans, integers, floats, strings, byte arrays, lists and maps without nil, whose map keys are scalars that stay different on the wire, written as an untyped value, is read back as the same tree, with every integer in the Go type of its wire format, and consumes exactly the bytes written. nil is encoded as two bytes, so a list containing nil does not read back as the same list; keys such as int8(1) and int64(1) merge, the value written last winning.", "quantifier": "every finite tree of any depth and width", "why_tests_cant": "Unbounded recursive values.", "anchors": ["msgpack/encoder.go: WriteAny", "msgpack/decoder.go: ReadAny"]}
{"id": "C44", "title": "Skip steps over exactly one value", "statement": "Positioned at the start of any MessagePack value of any depth that uses no one-byte fixed extension and no variable-length extension, Skip consumes exactly that value and leaves the following bytes untouched; this covers every untyped value the encoder writes. A one-byte extension is left half consumed, and variable-length extensions, among them the 12-byte timestamps the encoder itself writes, are refused.", "quantifier": "every MessagePack value of any depth, every preceding and trailing input", "why_tests_cant": "Unbounded nesting.", "anchors": ["msgpack/decoder.go: Skip, getPrefix"]}
{"id": "C45", "title": "Hostile lengths make Skip run for ever and readers panic", "statement": "There is a 6-byte input on which Skip recurses for ever, because a 32-bit string length makes the read offset wrap backwards. A string or byte-array length that wraps around 2^32 makes the reader panic instead of reporting end of input. On every input in which no four bytes, taken as a length, reach beyond 2^32, Skip returns, does not panic and moves forward inside the input.", "quantifier": "every amount of fuel for the first; every position and every wrapping length for the second; every such input for the third", "why_tests_cant": "Non-termination cannot be observed by a test and the wrap needs lengths near 2^32.", "anchors": ["msgpack/decoder.go: Skip", "msgpack/data_reader.go: checkBufferSize, Discard, GetBytes"]}
{"id": "C46", "title": "Running out of input is sticky and reads stay in bounds", "statement": "Once a read fails because the input is too short, every later read on the same decoder fails with the same error and does not move. Every read leaves the offset inside the input; a read can only panic when the input contains four bytes that, taken as a length, reach beyond 2^32. Errors about the type of a value are not remembered: the next read may succeed.", "quantifier": "every reader method, every state of the decoder over every input shorter than 2^32 - 2^17 bytes", "why_tests_cant": "All operation sequences and inputs.", "anchors": ["msgpack/data_reader.go", "msgpack/decoder.go"]}
{"id": "C47", "title": "Records decode regardless of field order and unknown fields", "statement": "A record written as a map of its fields decodes to the same record even when the fields are in any order and any unknown fields with any skippable values are interleaved; of a repeated field the last value wins and a missing field keeps its zero value. Encoding and decoding a record returns it. A nil record decodes as the zero record.", "quantifier": "every field order and every finite set of unknown fields and values", "why_tests_cant": "All permutations and all unknown values.", "anchors": ["example/greeter/greeter.go: GreetingRequest.Decode/Encode", "msgpack/decoder.go: Skip, ReadMapSize, ReadString"]}
{"id": "C48", "title": "Slices and maps round trip", "statement": "Writing a slice or map with the generic helpers and reading it back with matching element codecs returns the same elements in order (maps: the same association), provided the element codecs round trip.", "quantifier": "every slice and map of any length below 2^32, any element codec that round trips", "why_tests_cant": "Unbounded collections, abstract element codec.", "anchors": ["msgpack/codec.go: WriteSlice, ReadSlice, WriteMap, ReadMap"]}
{"id": "C49", "title": "Mono delivers at most one outcome", "statement": "For every sequence of Success, Error and Cancel on a subscribed mono, exactly the first one takes effect: the subscriber sees at most one success or error callback, Finally and each registered notification fire exactly once and with the matching signal, and Get afterwards returns the delivered value or error (a zero value without error after Cancel).", "quantifier": "every finite sequence of sink calls and notification registrations", "why_tests_cant": "All call sequences.", "anchors": ["rx/mono/mono.go: subscriber.Success/Error/Cancel/finally, mono.Notify, mono.Get"]}
{"id": "C50", "title": "Mono processor delivers whatever was produced before subscription", "statement": "If a processor gets results before anyone subscribes, the subscriber receives the last success if there was one, otherwise the last error, otherwise the first result produced after subscription, and in each case exactly one outcome.", "quantifier": "every sequence of results before and after subscription", "why_tests_cant": "All call sequences.", "anchors": ["rx/mono/processor.go: ProcessorImpl.Success/Error, NewProcessor"]}
{"id": "C51", "title": "Flux event grammar", "statement": "For every sequence of Next, Complete and Error on a subscribed flux, the subscriber sees the values in order, then at most one completion or error, then nothing; Finally fires at most once for that completion or error and after it.", "quantifier": "every finite sequence of sink calls without cancellation", "why_tests_cant": "All call sequences.", "anchors": ["rx/flux/flux.go: subscriber.Next/Complete/Error/finally"]}
{"id": "C52", "title": "Flux cancellation", "statement": "After Cancel no further value, completion or error reaches the subscriber and the upstream cancel action runs. But Cancel is not idempotent: every Cancel call runs the cancel action and Finally again, even after completion, and late notification registrations after a Cancel report completion.", "quantifier": "every finite sequence of sink calls and cancels", "why_tests_cant": "All call sequences; multiplicity of Finally grows without bound.", "anchors": ["rx/flux/flux.go: subscriber.Cancel, flux.Notify"]}
{"id": "C53", "title": "FromSlice delivers in order and respects demand", "statement": "A subscriber of FromSlice that requests n1, n2, ... values (from any goroutine, also inside its own callbacks, on the host and on WebAssembly) receives the elements of the slice in order, never more than requested in total; when all goroutines are done it has received exactly min(requested, length) values, and completion exactly when the slice is exhausted. On the host this holds for every interleaving of the steps of the request goroutines of one subscription. With two subscriptions of the same flux it does not: they share what is left of the slice without a common lock, so a value can reach both while another reaches none, or the program panics.", "quantifier": "every slice, every subscriber that does not itself call the sink, every schedule of requests, every interleaving of their steps", "why_tests_cant": "All slices and request sequences.", "anchors": ["rx/flux/slice.go: FromSlice", "rx/flux/flux.go: subscriber.Request/Next", "rx/flux/flux_host.go: doRequest"]}
{"id": "C54", "title": "Mapping a flux", "statement": "Mapping with a total function delivers exactly the mapped values in order followed by the source's termination. When the mapping fails on some value the subscriber gets an error but the source is not stopped: later values, a completion after the error and a second Finally can still be delivered.", "quantifier": "every source history, every mapping function and every schedule", "why_tests_cant": "All histories and functions.", "anchors": ["rx/flux/flux.go: Map, mapper.Subscribe"]}
{"id": "C55", "title": "Mapping a mono", "statement": "Mapping a mono yields the mapped value, or the mapping's error, or the source's error, exactly once; but when the mapping fails Finally reports completion rather than error.", "quantifier": "every source outcome and mapping function", "why_tests_cant": "All functions and call sequences.", "anchors": ["rx/mono/mono.go: Map, mapper.Subscribe, mapper.Get"]}
{"id": "C56", "title": "Flow runs its steps in order when awaited work finishes later", "statement": "If every step that awaits anything awaits at least one operation that completes only after the step was started, the steps run in order, each exactly once, and a step runs only after every operation awaited by the step before it has finished; the flow stops at, and never goes past, the first step that fails, ends the flow or awaits an empty group, and no other step is left out.", "quantifier": "every list of steps and every order of asynchronous completions", "why_tests_cant": "All completion orders.", "anchors": ["rx/flow/flow.go: Flow.next, Flow.check"]}
{"id": "C57", "title": "Flow repeats or skips steps when awaited work is already finished", "statement": "If a step always awaits only operations that are already complete when it registers (for example an immediate value), that step is run again and again and no later step ever runs. A step that does so once and then awaits pending work makes the flow skip the step after it, and panic if it is the last step.", "quantifier": "every depth of recursion", "why_tests_cant": "Non-termination.", "anchors": ["rx/flow/flow.go: Flow.next", "rx/mono/mono.go: justSingle.Notify"]}
{"id": "C58", "title": "Adapters between mono and flux", "statement": "Converting a mono to a flux delivers its value followed by completion, or its error. Converting a flux to a mono delivers the first value or the error if it comes first; an empty flux leaves the mono without any outcome. Converting a flux to a void mono succeeds exactly on completion.", "quantifier": "every source history", "why_tests_cant": "All histories.", "anchors": ["transform/transform.go: MonoToFlux, FluxToMono, FluxToVoid"]}
{"id": "C59", "title": "Remote stream caller: demand on the wire", "statement": "A remote stream or channel sends nothing before its first request. Its first request sends the request frame with that initial count, each later request made before the completion has been processed sends exactly one RequestN with that count, and no demand is sent afterwards; so the demand announced on the wire equals the demand of the subscriber modulo 2^32. The input of a channel is forwarded item by item, in order, from the first request on, and never before the request frame.", "quantifier": "every history of calls, subscriptions, requests, cancels, input events, received frames and goroutine schedules, at either end, with any number of concurrent streams and fewer than 2^30 calls", "why_tests_cant": "All histories.", "anchors": ["proxy/flux.go: streamFlux.Request/OnComplete/Cancel"]}
{"id": "C60", "title": "Remote call delivers exactly the peer's answer", "statement": "A remote request-response call sends exactly one request frame, carrying its payload, for each subscription. Only payloads and errors received on its own stream id are delivered to it, in order and each at most once. If the peer answers before closing the stream, the subscriber sees exactly the first answer received after subscribing; if the peer closes the stream without answering, the call stays pending for ever (finding).", "quantifier": "every history of calls, subscriptions, requests, received frames and goroutine schedules, at either end, with any number of concurrent streams and fewer than 2^30 calls; any subscriber callbacks", "why_tests_cant": "All interleavings of all streams.", "anchors": ["proxy/mono.go: streamMono", "handler/handler.go: HandleFrame", "handler/caller.go: RequestResponse"]}
{"id": "C61", "title": "Every request gets the answer of the handler it names", "statement": "Every request frame received is reacted to exactly once, or is still waiting for its goroutine, and nothing else is reacted to: with fewer than 8 bytes of metadata by one 'Invalid metadata' error, with an unregistered index by one 'not_found' error, and otherwise by invoking the handler registered at that index, once, with the request's data. The outcome of a request-response handler is answered by exactly one Payload (Next and Complete set) or Error frame on the request's stream; a mono that is cancelled or has no outcome is not answered.", "quantifier": "every export list shorter than 2^32, every history of frames, calls and goroutine schedules with fewer than 2^30 own calls and a peer using its own stream id parity; every mono and schedule", "why_tests_cant": "All requests and registries.", "anchors": ["handler/handler.go: handleRequestResponse, handleFireAndForget, checkMetadata"]}
{"id": "C62", "title": "A stream responder emits the handler's events in order", "statement": "The frames sent for the flux of a stream or channel handler are one Payload(Next) per value it emits, in order, up to the first completion, error or cancellation, then one Payload(Complete) or Error frame for a completion or error, and nothing after that.", "quantifier": "every sequence of sink calls, from any number of goroutines, interleaved with any requests; host and WebAssembly request models", "why_tests_cant": "All histories.", "anchors": ["handler/handler.go: handleRequestStream", "rx/flux/flux.go"]}
{"id": "C63", "title": "Frames that crash an endpoint", "statement": "After a request-stream or fire-and-forget request has been handed to its handler, any Cancel, Error or non-empty Payload frame on its stream panics the endpoint that serves it, at any later time, even after the handler finished. A RequestN on the stream of an open request-response call panics the calling endpoint; on an open stream call, or channel call without input, it starts a goroutine that panics. A stream handler that returns flux.Error panics the endpoint.", "quantifier": "every history of frames, calls and schedules (distinct request ids), every such frame, at every later time", "why_tests_cant": "Requires specific protocol histories from a (legal) peer.", "anchors": ["handler/handler.go: HandleFrame, requestStream.OnComplete/OnNext/OnError", "proxy/flux.go: streamFlux.DoRequest", "proxy/mono.go"]}
{"id": "C64", "title": "Remote call end to end", "statement": "In every execution of two ends joined by TCP (any number of calls, requests and streams in both directions, any cutting of the bytes into pieces, any goroutine order, any answers by the handlers), whatever is delivered to a request-response call is an outcome of the handler that the call's metadata selects at the other end, applied to exactly the data and metadata that the caller sent, or the text 'Invalid metadata' or 'not_found' if it selects none. Once everything written was delivered, the other end is idle and its handlers have answered, every subscribed call has such an outcome, and it is the one its subscriber sees.", "quantifier": "every execution of two connected ends, every export list shorter than 2^32, every payload that fits a frame, every handler behaviour, every chunking in both directions", "why_tests_cant": "Composition over all inputs and all chunkings.", "anchors": ["handler/caller.go", "handler/handler.go", "proxy/mono.go", "transport/rsocket/tcp_conn.go", "transport/rsocket/decoder.go", "internal/frames/*"]}
{"id": "C65", "title": "Closing a wasm instance", "statement": "If every accepted request is one that is finished exactly once, none is accepted after Close begins, and no request is just being finished at the moment Close is called, then nothing panics, Close gets past its wait only after every accepted request has sent all its frames, and it returns as soon as they all have. A request answered with 'Invalid metadata', or a stream of an unknown operation, is counted but never finished, so Close then never returns. Without the restrictions Close returns while a request is being served, which then panics: when Close is called between a finishing request's decrement and its look at the closing flag, when a channel is cancelled and completed (finished twice), or when a request is accepted during Close.", "quantifier": "every interleaving of requests, completions and Close", "why_tests_cant": "All schedules.", "anchors": ["transport/wasmrs/host/instance.go: Close, reduceActiveRequests, recvOne, handleRequest*"]}
{"id": "C66", "title": "Mesh links every satisfiable import", "statement": "After any sequence of module loads, where the imports of one kind of a module have different indexes, every import of a loaded module is linked, to an instance that exports the same namespace and operation, if and only if some module loaded so far exports it; the imports still pending are exactly those no module exports, in load order. Loading cannot fail in linking unless an import has index 2^32-1, which panics. The request type is not compared: an import for single calls is linked to an exported stream of that name.", "quantifier": "every sequence of loaded modules with any operation lists", "why_tests_cant": "All load orders, including imports before exports.", "anchors": ["transport/wasmrs/mesh/mesh.go: linkOperations, linkOperation"]}
{"id": "C67", "title": "Mesh imports keep calling the instance they were linked to", "statement": "A call through the mesh always reaches the most recently loaded exporter, with the exporter's index in the first four metadata bytes and the rest unchanged. An import keeps calling the exporter that was current when it was linked (the last one seen before it, or else the last one at the end of the first load that brings one), whatever is loaded later, even after that instance was replaced and closed. Metadata of fewer than four bytes panics.", "quantifier": "every sequence of loads", "why_tests_cant": "All load orders.", "anchors": ["transport/wasmrs/mesh/mesh.go: linkOperation, RequestResponse, destination"]}
{"id": "C68", "title": "Custom section reader returns the requested sections", "statement": "For every module that is a sequence of sections (sizes in any LEB128 form of at most five bytes), reading returns for each requested name the content of the last custom section with that name and nothing else, whatever other sections are present, except that a requested section with empty content at the very end of the module makes the read fail. Conversely every input below 4 GiB that is read without error is such a sequence of sections.", "quantifier": "every sequence of sections of any size and every set of requested names", "why_tests_cant": "All modules.", "anchors": ["transport/wasmrs/customsections/customsections.go: Read, decodeUTF8, decodeCustomSection"]}
{"id": "C69", "title": "UUID text round trip", "statement": "Formatting any UUID as text or URN, in braces or as raw hex (in any mix of letter case) and parsing it returns the same UUID, for both the string and the byte parser; the text is the lower-case dashed form, and texts of different UUIDs differ. The binary form accepts sixteen bytes and nothing else.", "quantifier": "all 2^128 UUIDs, every mix of letter case", "why_tests_cant": "2^128 values.", "anchors": ["types/uuid/uuid.go: Parse, ParseBytes, String, URN, encodeHex", "types/uuid/util.go: xtob"]}
{"id": "C70", "title": "UUID parser accepts exactly the documented forms, braces unchecked", "statement": "The parser accepts a text if and only if it is 32 hex digits, or 36 characters with dashes at positions 8, 13, 18, 23 and hex digits elsewhere, or 'urn:uuid:' in any case followed by such 36 characters, or such 36 characters preceded and followed by one arbitrary character each; it returns the bytes the digits spell; everything else is an error and never a panic. The string and the byte parser agree. The characters around the last form need not be braces.", "quantifier": "every byte string", "why_tests_cant": "All strings.", "anchors": ["types/uuid/uuid.go: Parse, ParseBytes"]}
{"id": "C71", "title": "Random UUIDs are version 4", "statement": "Every generated random UUID, from any random bytes, directly or through the pool, in any order of generating, enabling and disabling, reports version 4 and the RFC 4122 variant and takes the other 122 bits from a 16-byte block of the random source; the blocks of different UUIDs never overlap. Generation fails only when the source runs out.", "quantifier": "every random byte source and every number of generated UUIDs", "why_tests_cant": "All random inputs.", "anchors": ["types/uuid/version4.go: NewRandomFromReader, newRandomFromPool", "types/uuid/uuid.go: Version, Variant"]}
{"id": "C72", "title": "Clock sequence makes timestamps unique", "statement": "For every sequence of clock readings, including repeated and backward ones, after any earlier calls, the pairs of timestamp and clock sequence handed out are pairwise distinct as long as the clock failed to advance fewer than 2^14 times and the sequence is not set by hand; both conditions are needed. The timestamps count 100 ns intervals since 15 October 1582.", "quantifier": "every sequence of clock readings and initial sequence", "why_tests_cant": "All clock histories.", "anchors": ["types/uuid/time.go: getTime, setClockSequence"]}
{"id": "C73", "title": "Oversized guest payloads leak guest memory to the host", "statement": "A Payload frame sent by a guest that does not fit the shared buffer (size above buffer size - 3, header and metadata fitting) is not refused: the host receives one frame of the announced length whose data is the part that fitted followed by whatever bytes lie behind the buffer in guest memory.", "quantifier": "all payloads, buffer contents and surrounding memory", "why_tests_cant": "The bytes delivered depend on memory contents no test controls, and every payload size must be considered.", "anchors": ["transport/wasmrs/guest/guest.go: doSendFrame", "transport/wasmrs/host/instance.go: hostSend"]}
{"id": "C74", "title": "Streams closed in the order they were opened are all kept", "statement": "For every non-empty sequence of streams with distinct ids, adding all of them to the stream table and then removing them in the same order leaves every one of them findable through Get (they are leaked) while Size reports 0.", "quantifier": "every sequence of streams of any length with distinct ids", "why_tests_cant": "Arbitrarily many concurrently open streams; single-stream tests see only one leaked entry.", "anchors": ["proxy/lookup.go: Lookup.Add/Remove/Get/Size", "handler/handler.go: h.lookup.Remove"]}
{"id": "C75", "title": "ReadAny returns on every input", "statement": "Reading an untyped value returns (a value, an error or a panic) on every input from every position, after a number of steps linear in the remaining bytes, with the offset inside the input; a successful read consumes at least one byte.", "quantifier": "every byte sequence shorter than 2^32 - 2^17 bytes, every start offset", "why_tests_cant": "Termination for every input, including hostile lengths and arbitrary nesting, is not a finite set of runs; Skip on the same format does not terminate on some inputs.", "anchors": ["msgpack/decoder.go: ReadAny, readArray, readMap"]}
{"id": "C76", "title": "Skip accepts a value that is cut off", "statement": "Skip of a fixed-width number whose bytes are missing reports success (the error is only recorded in the decoder), so a record whose last, unknown field is cut off decodes without an error.", "quantifier": "every numeric format, every shortfall, every unknown field name shorter than 32 bytes", "why_tests_cant": "The claim covers every number format, every number of missing bytes and every name; tests only show single truncations.", "anchors": ["msgpack/decoder.go: Skip, getSize", "example/greeter/greeter.go: GreetingRequest.Decode"]}
{"id": "C77", "title": "SliceResponse repeats elements on WebAssembly", "statement": "Where requests are served synchronously (WebAssembly), a subscriber of SliceResponse that asks for one more value inside OnNext is given the first element of the slice over and over, without bound; a request for a negative number of values panics.", "quantifier": "every non-empty slice, every number of repetitions; every negative count", "why_tests_cant": "Unbounded number of repetitions, for every slice.", "anchors": ["rx/flux/response.go: SliceResponse", "rx/flux/flux_webassembly.go: doRequest"]}
{"id": "C80", "title": "Times stored in UUIDs are read back", "statement": "The time and clock sequence of a UUID laid out as in RFC 4122 are read back for every version, variant, time and node; converting a timestamp to Unix time gives the clock reading up to 100 ns, with both parts negative or zero before 1970.", "quantifier": "all times, versions, variants, clock sequences, nodes; every clock reading in int64", "why_tests_cant": "60-bit times and 64-bit readings.", "anchors": ["types/uuid/time.go: Time, ClockSequence, UnixTime, getTime"]}
{"id": "C81", "title": "SliceResponse on the host delivers the slice once, in order, on demand", "statement": "Where every request runs in its own goroutine, a source that answers requests with SliceResponse hands over a prefix of the slice in order, never more than was asked for, and when all goroutines are done exactly as many values as were asked for (or the whole slice), with a completion exactly if something was asked for and nothing is left; it neither fails nor panics as long as nobody asks for a negative number, whatever the subscriber and other goroutines request, cancel or register and from wherever. This also holds when the goroutines interleave step by step, because the subscriber's mutex serialises them.", "quantifier": "every slice, every subscriber and set of goroutines that only request (non-negative numbers), cancel and register notifications, every order of goroutines; and every interleaving of the steps of any number of requests", "why_tests_cant": "All histories of requests from inside and outside callbacks.", "anchors": ["rx/flux/response.go: SliceResponse", "rx/flux/flux_host.go: doRequest"]}
{"id": "C78", "title": "The host answers every whole request exactly once", "statement": "Whatever frames a guest sends and in whatever order the host's goroutines run, every whole request is reacted to exactly once or still has its goroutine outstanding; when none is outstanding every request was answered: by invoking the handler of the imported operation of that type with the request's data and all of its metadata, or by an error frame on its stream. Requests marked as fragments are never answered.", "quantifier": "every history of frames from the guest, calls of the host and goroutine orders, every import table that may change over time", "why_tests_cant": "All interleavings of goroutines and frames.", "anchors": ["transport/wasmrs/host/instance.go: recvOne, handleRequestResponse, handleFireAndForget, handleRequestStream, handleRequestChannel", "transport/wasmrs/host/caller.go"]}
{"id": "C79", "title": "A guest answers every whole request at once and in order", "statement": "A guest's reactions to whole requests, invocations and error frames, are in the order of the requests and none is outstanding. Apart from Setup frames and fragments, every behaviour of a guest is one of an end made of the handler package, so the properties C59 to C63 hold for guests.", "quantifier": "every history of frames, calls and callbacks of a guest; every list of exported operations", "why_tests_cant": "All histories; refinement between two implementations.", "anchors": ["transport/wasmrs/guest/guest.go: GuestSend and its request handlers", "transport/wasmrs/guest/caller.go"]}
{"id": "C82", "title": "A stream served by the host is asked for the initial demand only", "statement": "For every stream handler invoked by the host, the only demand that ever reaches its subscription is the initial one of a request received before, and its stream object is never told anything: later RequestN and Cancel frames have no effect. A handler that answers from a slice longer than the initial demand therefore never completes.", "quantifier": "every history of the host, every slice, every schedule of the request goroutines", "why_tests_cant": "Absence of an effect in all histories.", "anchors": ["transport/wasmrs/host/instance.go: handleRequestStream, recvOne"]}
{"id": "C83", "title": "Demand for a served stream reaches its handler once", "statement": "With an end made of the handler package, every RequestN that arrives on a stream after its handler was invoked is passed on once, with its number, or is outstanding as a goroutine; the initial demand is passed on first and nothing else reaches the subscription. RequestN frames that arrive between the request and the invocation are lost. In a guest the demands are passed on at once, in the order of arrival.", "quantifier": "every history in which the peer uses each stream id for one request; every order of goroutines", "why_tests_cant": "All interleavings of goroutines and frames.", "anchors": ["handler/handler.go: HandleFrame, handleRequestStream", "transport/wasmrs/guest/guest.go: GuestSend"]}
{"id": "C84", "title": "Frames between host and guest keep their order; when the host's loops can stop", "statement": "Frames sent by the host reach the guest, and frames passed by the guest reach the host's callbacks, once and in order. The two loops stop only when everything is delivered or in a deadlock, which is final: both channels full, a guest call waiting to pass a frame and a callback waiting to send one. Callbacks that send nothing always let the loops finish. With capacities a and b there is no deadlock as long as at most a+b+1 frames are under way and each is answered by at most one; but a guest call that has a+b+2 frames to pass (202 in the code) never returns if each makes a callback send something, whatever other goroutines do.", "quantifier": "every guest and every set of callbacks (as state machines), all capacities, every schedule of the two loops and of any number of other senders", "why_tests_cant": "Needs full channels and all schedules; the deadlock appears only from 202 frames on.", "anchors": ["transport/wasmrs/host/instance.go: SendFrame, sendLoop, hostSend, recvLoop, NewInstance"]}
{"id": "C85", "title": "Transforms round trip", "statement": "For every transform of package transform, Decode of the payload made by Encode returns the value: strings, byte arrays (also of 255 bytes, where the payload is a byte too long), booleans, integers and floats of every width, values that travel as text, slices and maps (whatever the iteration orders of the sizing and the writing pass), and the handle of a registered instance, which leads back to the instance until it is removed. Bytes after the value are ignored. Exceptions: an int or uint of the host beyond 32 bits decodes to another number in WebAssembly, without an error; a time written by WriteTime is refused by transform.Time although ReadTime reads what transform.Time writes.", "quantifier": "all values of the Go types, all element encoders and decoders that fit each other, all iteration orders of a map, all trailing bytes, all histories of the instance tracker", "why_tests_cant": "Unbounded values and nested element types; map iteration order is random; the word size of int differs only between host and guest.", "anchors": ["transform/transform.go", "invoke/instances.go: LiveInstances"]}
{"id": "C86", "title": "Block returns the outcome", "statement": "On the host, Block subscribes and waits. Mono: for every history of calls the blocked caller returns the outcome of the first Success or Error, the channel is never closed twice, and after a Cancel the caller waits for ever; for a mapped mono the outcome is the mapped value or the mapping's error. Block on a mono whose last subscription has ended returns that outcome without subscribing. Flux: without a Cancel the blocked caller waits or has returned nil after a completion and the error after an error, and the process survives; the result is given for every history. Exceptions: a Cancel after the end or a second Cancel closes the channel again and crashes the process; so does, on a mapped flux, a value that cannot be mapped followed by the end of the source; Block on a flux never subscribed to panics; Block on a mapped error flux never returns.", "quantifier": "all sources, callbacks, mappings, histories of calls and schedules, at every moment", "why_tests_cant": "Unbounded histories; the crash needs a particular combination of a failing mapping or Cancel with an end, which no test in the repository makes.", "anchors": ["rx/mono/mono_host.go: Block", "rx/flux/flux_host.go: Block", "rx/flux/flux.go: errorFlow", "proxy/mono_host.go: Block"]}
{"id": "C87", "title": "Life of a TCP server", "statement": "Closing a listening TCP server, by Close, by its context or because Listen leaves its loop, closes the listener and every session it knows, each exactly once, and no session is started afterwards; Listen does not return from its loop before that. Every accepted connection is started as a session or refused, never both, and the acceptor is called at most once per session, only for started ones. Exceptions: a server closed before Listen listens for ever, cannot be closed and leaves every connection open; a connection refused during Close is never closed; ended sessions stay in the server's table until somebody calls onClose; a session that ends before its Setup frame leaves a goroutine waiting for ever.", "quantifier": "all sequences of Close, Listen, accepted connections, errors, cancellations and session events, in every order of the goroutines' steps", "why_tests_cant": "Needs interleavings of Close with an accept in progress and calls in an unusual order; leaks show only after a long time. The repository has no test of the server.", "anchors": ["transport/rsocket/tcp_transport.go: tcpServerTransport", "transport/rsocket/transport.go: Close, Start, WaitUntilReady"]}
{"id": "C88", "title": "A flux processor routes to its latest subscriber", "statement": "Every value, completion or error pushed into a flux processor reaches the subscription that was the latest when it was pushed, no other, once and in order, whoever pushes and from wherever (goroutines, the subscriber's own callbacks); a subscriber that does not cancel sees exactly these up to the first completion or error. What is pushed before the first subscription reaches nobody, so if nothing follows no subscriber is ever told anything. A source is asked for values only on behalf of a subscription its announcement was routed to: the latest one, or the first one for the last announcement made before it.", "quantifier": "all users (goroutines and callbacks that push, announce, subscribe, request, cancel, register), all schedules, host and WebAssembly", "why_tests_cant": "Needs re-entrant pushes from callbacks and every interleaving of subscriptions with pushes; the loss is silence, not a failure. The repository has no test of the processor.", "anchors": ["rx/flux/processor.go", "rx/flux/flux.go: Subscribe, Next, Complete, Error, OnSubscribe"]}
{"id": "C89", "title": "Generated records survive reordering, versions and unknown fields", "statement": "For a record with any fields: decoding accepts its fields in any order, repeated, missing, with unknown fields of any type in between, and applies exactly the known ones. A record encoded by one version and decoded by another carries the fields both know; the others are skipped or stay as they were; a nil record changes nothing. GreetingRequest, CounterRequest, Strings and WordCount come back as they were encoded.", "quantifier": "all tables of distinctly named fields, all records whose encoding is below 4 GiB, all orders, repetitions and unknown values, all buffers around", "why_tests_cant": "Ranges over all pairs of record versions and all encodings of unknown values; the repository has no test of generated records.", "anchors": ["transport/wasmrs/example/counter.go: CounterRequest", "transport/wasmrs/example/concat/generated.go: Strings", "transport/wasmrs/example/wordfrequency/generated.go: WordCount", "transport/wasmrs/mesh/modules/greeting/types.go, concat/types.go", "example/greeter/greeter.go: GreetingRequest"]}
{"id": "C90", "title": "The word frequency component counts right, its handler only one word", "statement": "The component reports every word that is not ignored exactly once, in lower case, with the number of its occurrences (modulo 2^64), highest first, and nothing else. Its channel handler, however, is decided by the first message for port \"words\": since a value and the end of a port carry the same flag, the first word ends the input, the answer has the count of that word only (or nothing for an ignored word), then an end marker and the completion; an undecodable first word gives just that error. Words sent later are never counted.", "quantifier": "all words, all orders Go may iterate a map in and sort ties in, all sequences of input messages, all lengths", "why_tests_cant": "Depends on the order of map iteration and on equal flag bits that look different in the source; needs all input sequences. The repository has no test of it.", "anchors": ["transport/wasmrs/example/wordfrequency/wordfrequency.go", "transport/wasmrs/example/wordfrequency/generated.go: wordFrequencyHandler", "invoke/portio.go"]}
{"id": "C91", "title": "One-value components answer once, from the first value", "statement": "A component with one input and one output value (Concat, Greeter) is decided by the first message for its input port: if it decodes, the answer is exactly one message on the output port with the computed text, flagged as the last, then the completion; if not, the decoder's error; later messages and errors change nothing. Concat and Greeter joined as in the flow example turn (left, right) into \"Hello, left right\". If the input ends or fails without a value the answer never ends.", "quantifier": "all sequences of input messages, all decoders and functions, all strings up to 4 GiB", "why_tests_cant": "Needs all input sequences including malformed, late and missing ones; the missing end is silence. The repository has no test of the components.", "anchors": ["transport/wasmrs/example/concat/generated.go: concatHandler", "transport/wasmrs/example/concat/concat.go", "transport/wasmrs/example/greeter/generated.go: greeterHandler", "transport/wasmrs/cmd/fbp/host/main.go"]}
{"id": "C92", "title": "Optional values survive, but three helpers crash on nil", "statement": "An optional value written with WriteNillable and read with the matching ReadNillable comes back, nil as nil, and no value of any type is mistaken for nil; an optional record read with DecodeNillable is nil exactly if nil was written, in every pair of versions. The helpers NillableParse, Format and StringToTimePtr hand on nil and errors; Parse, String, Bool, Numeric and ByteArray report exactly the failures of the read and of the conversion and give the converted value otherwise; NillableString, NillableBool and NillableNumeric panic exactly when the value is nil or the read failed.", "quantifier": "all value types with a round trip, all records and versions, all readers and inputs, all conversions", "why_tests_cant": "Needs every first byte an encoder can produce and every way a read can fail; the helpers are instantiated by generated code only and have no test.", "anchors": ["msgpack/decoder.go: ReadNillable..., DecodeNillable", "msgpack/encoder.go: WriteNillable...", "msgpack/convert/convert.go"]}
{"id": "C93", "title": "A typed remote call returns what the service returned", "statement": "When a generated client method calls an operation the peer exports through the generated wrapper, the subscriber of the mono it returns is called exactly once, with a value or an error that the peer's service delivered for exactly the arguments of the call; nothing else is ever passed on. Client and service may be generated from different versions of the record: the outcome is one the service delivered for what arrives of the client's record. Arguments the wrapper cannot decode are answered with the decoder's error and nothing else. For the example's greeter this is the greeting of the two names. A call without metadata is refused by every peer.", "quantifier": "all records and result types with a round trip, all services (any set of outcomes), all exports of both ends, all runs of two joined ends over any split of the bytes, all subscribers and schedules", "why_tests_cant": "Composes encoding, indexing, framing, stream ids, dispatch and decoding over every interleaving of two ends; a test runs one call.", "anchors": ["example/greeter/greeter.go: sayHelloWrapper, GreeterClient.SayHello", "transport/wasmrs/example/greeting.go", "transport/wasmrs/mesh/modules/concat/import.go, export.go", "handler/caller.go", "handler/handler.go: handleRequestResponse"]}
{"id": "C94", "title": "A remote stream delivers what the handler's flux delivered", "statement": "What reaches the flux behind a stream or channel call was written by the peer on the stream of that call, in that order and no more often, whatever either end does. If nothing for the caller follows the end of the stream it is at every moment a beginning of what was written, and all of it once everything has arrived. The peer invokes at most one handler for the call, the selected one with the payload of the call, and exactly once if the call was asked for values and the peer is idle. When all has arrived, the caller's subscriber has seen the values and the end that a subscriber of the handler's flux itself would have seen. It fails for a channel whose handler cancels its input: the caller is told that the channel has completed.", "quantifier": "all exports of both ends, all runs of two joined ends over any split of the bytes with any number of calls in either direction, all handler fluxes, all subscribers and schedules", "why_tests_cant": "Concerns every interleaving of two ends, every number of open streams and every split of the connection's bytes; a test follows one stream.", "anchors": ["handler/handler.go: HandleFrame, handleRequestStream, handleRequestChannel", "handler/caller.go: RequestStream, RequestChannel", "proxy/flux.go", "rx/flux/processor.go", "transport/rsocket/transport.go"]}
{"id": "C95", "title": "The input of a remote channel reaches its handler", "statement": "What reaches the input of a channel handler was written by the caller's end on the stream of the call, in that order and no more often, whatever either end does. If none of it arrives before the handler is invoked and no input follows the end, it is at every moment a beginning of what was written and all of it once everything has arrived. For an input that emits only when asked to and ends once, on a call that is not cancelled, the handler's input is at every moment given a beginning of what the caller's input emitted, value by value and end by end, and all of it once everything has arrived. It fails for an input that emits unasked (values that arrive before the handler runs are lost), and cancelling the call completes the handler's input.", "quantifier": "all exports of both ends, all runs of two joined ends over any split of the bytes with any number of calls in either direction, all inputs", "why_tests_cant": "Depends on when the handler's goroutine runs relative to the frames that follow the request, on every number of open streams and on every split of the bytes; a test sees one schedule.", "anchors": ["handler/handler.go: HandleFrame, handleRequestChannel, requestStream", "handler/caller.go: RequestChannel", "proxy/flux.go: Request, Cancel, DoRequest", "transport/rsocket/transport.go"]}
{"id": "C96", "title": "A typed remote stream delivers what the service's flux delivers", "statement": "A call of a generated stream client invokes the service exported under that name at most once, with the record the client was called with, and does so when the caller has requested values and everything has arrived; for the counter of the example, for every 64-bit number. The subscriber of the typed flux that the client returned sees, once everything has arrived, exactly the values, the completion or the error that it would have seen of the service's own typed flux, in order and each once, for values the transform can encode and decode back (every string of less than 4 GB).", "quantifier": "all record and value types, all exports, all runs of two joined ends, all service fluxes and schedules on both sides", "why_tests_cant": "The example stubs are exercised with a handful of values on one schedule; the claim composes encoding, mapping, frames, splitting and delivery for every value and every interleaving.", "anchors": ["transport/wasmrs/example/counter.go: CountToN, counterWrapper", "rx/flux/flux.go: Map", "transform/transform.go: Encode, Decode", "handler/handler.go: handleRequestStream"]}
{"id": "C97", "title": "A typed remote channel hands the service the caller's typed input", "statement": "A call of a generated channel client invokes the service exported under that name at most once, and does so when the caller has requested values and everything has arrived. For an input that emits only when asked to, on a call that is not cancelled, the service that subscribes its typed input sees, once everything has arrived, exactly the values, the completion or the error that it would have seen of the caller's own typed input, in order and each once, for values the transform can encode and decode back. The channel's output is as in C96.", "quantifier": "all value types, all exports, all runs of two joined ends, all inputs and schedules on both sides", "why_tests_cant": "Needs every interleaving of the handler's goroutine, the demand it sends and the caller's input, for every value and every split of the bytes.", "anchors": ["transport/wasmrs/example/uppercase.go: Uppercase, uppercaseWrapper", "rx/flux/flux.go: Map", "proxy/flux.go: Request", "handler/handler.go: handleRequestChannel"]}
{"id": "C98", "title": "A host or guest that serves and calls at the same time sends its calls and delivers their answers", "statement": "For a call that a WebAssembly host or a guest makes, at any time and while it serves any calls of the other end: a request-response call puts one request frame per subscription on the wire with the caller's payload, its subscriber is only given answers that arrived on the call's own stream, and the first answer that arrives after the subscription is the one the subscriber sees. A stream or channel announces exactly the demand of its subscriber, its input frames carry exactly what the caller's flux emitted, and none goes out before the request frame. What arrives on the stream is delivered, in order and each at most once, and completely if the stream is not used after it was closed.", "quantifier": "all executions of a host (with any imports, changing between steps) and of a guest (with any exports), for every call in them", "why_tests_cant": "Calls and served requests share the stream tables and the event loop; which ones interleave, in which order, is unbounded.", "anchors": ["transport/wasmrs/host/caller.go: RequestResponse, RequestStream, RequestChannel", "transport/wasmrs/host/instance.go: recvOne, handleRequest*", "transport/wasmrs/guest/caller.go: RequestResponse, RequestStream, RequestChannel", "transport/wasmrs/guest/guest.go: GuestSend, handleRequest*"]}
{"id": "C99", "title": "A request-response call between host and guest returns the outcome of the selected handler", "statement": "A host and a guest share memory and call each other. Nothing but an outcome of the handler that the call's payload selects at the other end, applied to that payload (the guest's handlers get the metadata after the two numbers, the host's get all of it), is ever delivered to the call; a payload whose metadata is too short or selects no handler gets the error that says so. Once everything was delivered, the other end is idle and its handlers have answered, every subscribed call has such an outcome and its subscriber sees that outcome, once.", "quantifier": "all exports and imports, all handlers' behaviours, all buffer sizes and contents, all interleavings of calls in both directions, for frames that fit the buffers", "why_tests_cant": "Needs every interleaving of calls, served requests and frames in flight in both directions, with every payload and every buffer content.", "anchors": ["transport/wasmrs/host/instance.go: recvOne, handleFrame, handleRequestResponse", "transport/wasmrs/guest/guest.go: GuestSend, sendFrame, handleRequestResponse", "transport/wasmrs/host/caller.go: RequestResponse", "transport/wasmrs/guest/caller.go: RequestResponse"]}
{"id": "C100", "title": "A stream or channel between host and guest delivers what the handler's flux delivered", "statement": "For a stream or channel call between a host and a guest that share memory: the other end invokes at most one handler, the one that the payload selects, with that payload, and does so once it was asked for values, everything has arrived and it is idle. The flux behind the call is given only what the other end wrote on the call's stream, in that order and no more often, at every moment a beginning of it, and all of it when everything has arrived, unless the stream is used after it was closed. The caller's subscriber sees what it would have seen of the handler's flux itself.", "quantifier": "all exports and imports, all fluxes and schedules at the handler, all buffer sizes and contents, all interleavings of calls in both directions, for frames that fit the buffers", "why_tests_cant": "Needs every interleaving of several streams in both directions over the same buffers, and every flux and schedule on both sides.", "anchors": ["transport/wasmrs/host/instance.go: recvOne, handleFrame, handleRequestStream, handleRequestChannel", "transport/wasmrs/guest/guest.go: GuestSend, sendFrame, handleRequestStream, handleRequestChannel", "transport/wasmrs/host/caller.go: RequestStream, RequestChannel", "transport/wasmrs/guest/caller.go: RequestStream, RequestChannel"]}
{"id": "C101", "title": "A call between the modules of a mesh returns the outcome of an exporter's handler", "statement": "A guest in a mesh calls an operation that it imported. What is delivered to the call is an outcome of a handler that some module of the mesh registered for that very operation, applied to the caller's data and the caller's metadata after the two numbers; if no module exports the operation it is the error that says so. Once everything was delivered and the host has answered, a subscribed call has such an outcome. The same holds for a call through the mesh itself, which returns nil exactly if no module exports the operation. This needs that the operation is exported for single calls only.", "quantifier": "all lists of modules in any load order, all their registrations, all handlers' behaviours, all executions of all instances, for frames that fit the buffers", "why_tests_cant": "Needs every load order and registry of every number of modules, and every interleaving of the calls in both instances.", "anchors": ["transport/wasmrs/mesh/mesh.go: RequestResponse, linkOperation, destination.RequestResponse", "transport/wasmrs/host/instance.go: SetRequestResponseHandler, handleRequestResponse", "transport/wasmrs/host/caller.go: RequestResponse", "invoke/handlers.go: ImportRequestResponse, GetOperationsTable"]}
{"id": "C102", "title": "A client made by a host reaches the guest's operation of its name only if both sides name them in the same order", "statement": "A client that a host makes on an instance gets its number from the host process. If the host process named the operations in the order in which the guest registered them, every outcome delivered to a call is one of a handler that the guest registered for the client's operation, and a subscribed call has one once the guest has answered. Otherwise the call may be answered by the handler of another operation although the guest exports the one asked for.", "quantifier": "all registrations of host and guest, all handlers' behaviours, all executions, for frames that fit the buffers", "why_tests_cant": "Needs every order of registrations on both sides and every interleaving of calls; a test with one operation always finds equal orders.", "anchors": ["transport/wasmrs/host/caller.go: ImportRequestResponse, RequestResponse", "invoke/handlers.go: ImportRequestResponse"]}
{"id": "C103", "title": "A typed call between the modules of a mesh gives a result of the exporting module's service", "statement": "A guest in a mesh calls a typed client of an operation that it imported. The result is one that the service of some module exporting that operation returns for the very record passed, or the error that no module exports it. If a module exports it and everything was delivered and answered, the subscriber of the returned mono is called exactly once, with such a result. For the modules of the mesh example: NewCustomer returns \"Hello, \" with both names in every mesh that has the concat and greeting modules; without them the part they provide is empty and no error is reported.", "quantifier": "all meshes, record types whose values survive encoding, services, buffers, executions, schedules of the subscriber; all names short enough for a frame", "why_tests_cant": "Combines every position of the operation in the importing and exporting modules, every record and every interleaving of the frames of three processes; a test runs one mesh with one name.", "anchors": ["transport/wasmrs/mesh/modules/concat/import.go: Concat", "transport/wasmrs/mesh/modules/greeting/import.go: SayHello", "transport/wasmrs/mesh/modules/customer/cmd/main.go: NewCustomer", "transport/wasmrs/mesh/mesh.go: LoadInstance, RequestResponse"]}
{"id": "C104", "title": "Awaiting a remote call sends it once; blocking on it does not send it", "statement": "For the mono of a remote request-response call: every subscription sends the request once, and awaiting it sends it only if it was not sent before. In a flow that awaits the call, however often, the request is sent once, nothing is notified before the answer, afterwards every notification asked for has been given exactly once with the signal of the first answer, and Get gives that answer, decoded on a typed call. Block of a typed call sends the request (again, even if it was answered) and returns the decoded answer to it. Block of the untyped mono never sends the request: if nothing else started the call it never returns; on a call in flight it returns the answer if its goroutine runs before the answer comes, and otherwise never.", "quantifier": "all sequences of uses by any number of goroutines, all answers, all decodings", "why_tests_cant": "The lost answer needs one particular interleaving of a goroutine with the network; that a Block never returns cannot be observed in finite time; the counts hold for all sequences of uses.", "anchors": ["proxy/mono.go: Mono, Subscribe, Async, Notify", "rx/mono/mono_host.go: Block", "rx/mono/mono.go: Notify, Get, Map", "rx/mono/processor.go: NewProcessor"]}
{"id": "C105", "title": "A stream across a mesh tells the caller what the exporter's handler gave", "statement": "When a guest calls a stream or channel it imports, at most one handler is invoked for it, one that a module of the mesh registered for that operation as that kind of call, with the caller's data and the metadata behind the operation number, and exactly one once the request was asked for and has arrived. The flux behind the caller's call is given, in order and without additions, what the flux of that handler gave up to its end, although it passes through the host twice: at every moment a beginning of it, and all of it once everything has arrived; the caller's subscriber then sees what it would have seen of the handler's flux itself. If no module exports the operation, nothing is invoked and the caller is told nothing but not_found and the end.", "quantifier": "all meshes of modules with fewer than 2^32 - 1 registrations whose operation is exported as one kind of call, all executions of both instances whose frames fit the buffers, all fluxes of handlers, subscribers and schedules", "why_tests_cant": "Two instances run concurrently and every hop may cut the sequence at any point; the claim holds for all interleavings, all payloads and all registrations.", "anchors": ["transport/wasmrs/mesh/mesh.go: linkOperation, destination.RequestStream, destination.RequestChannel", "transport/wasmrs/host/instance.go: handleRequestStream, handleRequestChannel", "transport/wasmrs/host/caller.go: RequestStream, RequestChannel", "proxy/flux.go: Flux"]}
{"id": "C106", "title": "What reading, awaiting and blocking on a remote stream do", "statement": "However a remote stream is used, at most one request is sent for it, before any further demand. Only its first subscriber can ask the peer for anything: later ones send nothing. Readers are given values and ends only when something arrives. A stream that is awaited, however often, is requested once with all demand, and every notification asked for, before or after the end, is given exactly once, after the first end arrived and with its kind. flux.Block on a stream nobody has read gives its caller every value in order of arrival and returns at the end with its error. The method Block panics while nothing has subscribed; it never returns if the end arrives before its goroutine has subscribed; reading a stream that has ended a second time never ends.", "quantifier": "all sequences of subscriptions, awaits, notifications, blocks, requests, goroutine runs and arrivals", "why_tests_cant": "Goroutines may run at any point between calls and arrivals; a test sees one schedule, and that something never happens cannot be observed in a finite run.", "anchors": ["proxy/flux.go: streamFlux.Subscribe, Async, Notify, Request, OnNext, OnComplete, OnError", "rx/flux/processor.go: NewProcessor", "rx/flux/flux.go: flux.Subscribe, Notify, subscriber.Next, Complete, Error", "rx/flux/flux_host.go: Block, flux.Block, doRequest"]}
{"id": "C107", "title": "The input of a channel call between a host and a guest", "statement": "When a handler is invoked on a channel across the wasm transport, in either direction, its input is given only what the caller's end wrote on the stream of the call, in that order and no more often; if nothing of the input arrived before the invocation and nothing follows the end of the input, it is given a beginning of what was written at every moment and all of it once everything has arrived. When the host calls the guest, nothing of the input can arrive before the invocation: if the host's input ends at most once and the call is not cancelled, the guest's handler is given what the host's input emitted, in order, at every moment a beginning of it and in the end all of it, whether or not the host's input waited to be asked. When the guest calls the host, an input that does not wait to be asked can lose values.", "quantifier": "all runs of a host and a guest joined by the frame buffers: all calls, inputs, interleavings, demand, and frame contents", "why_tests_cant": "The order of arrival and invocation depends on scheduling; a test with two ends sees one interleaving and a few inputs.", "anchors": ["transport/wasmrs/host/instance.go: recvOne, handleFrame, handleRequestChannel", "transport/wasmrs/guest/guest.go: GuestSend, sendFrame, handleRequestChannel", "transport/wasmrs/host/caller.go: RequestChannel", "transport/wasmrs/guest/caller.go: RequestChannel", "proxy/flux.go: Request, DoRequest"]}
{"id": "C108", "title": "Monos made by Just and Error, mapped any number of times", "statement": "Each subscription, Get and Block of a mono made by Just or Error, with any stack of Map on top, evaluates it anew: the value passes the transforms in order up to the first that fails, and the user is told the outcome exactly once, before the call returns; Block always returns. Finally and OnRequest are never called. If the transforms keep no state, all users are told the same, the composition of the transforms applied to the source. Each notification is given once, at once, and its signal says whether the source is a value, not whether a transform fails.", "quantifier": "all sources, all stacks of transforms (with or without state), all sequences of uses", "why_tests_cant": "A test tries one stack of transforms and one order of uses; that Finally is never called, and that all readers agree, are statements about all of them.", "anchors": ["rx/mono/mono.go: Just, Error, Map, mapper.Subscribe, Notify, Get", "rx/mono/mono_host.go: mapper.Block"]}
{"id": "C109", "title": "Typed streams and channels between a host and a guest", "statement": "If a host process names the stream operations in the order in which the guest exported them, a typed stream call of the host invokes a service the guest registered under that name, at most once, with a payload that decodes to the record the client was called with, and does so once values were requested and all frames arrived; for the counter example this holds for every 64-bit number. In both directions, when everything has arrived, the subscriber of the typed flux has seen what it would have seen of the service's own flux. When a host opens a typed channel and does not cancel it, the guest's service sees what it would have seen of the caller's own input, even if that input does not wait to be asked.", "quantifier": "all runs of a host and a guest joined by the frame buffers, all fluxes, schedules, values that their codec gives back, orders of registration", "why_tests_cant": "A test has one service, a few values and one interleaving; the statement composes codecs, subscriptions, frames and buffers for all of them.", "anchors": ["transport/wasmrs/example/counter.go", "transport/wasmrs/example/uppercase.go", "transport/wasmrs/host/caller.go: ImportRequestStream, RequestStream, RequestChannel", "transport/wasmrs/guest/guest.go: handleRequestStream, handleRequestChannel", "transport/wasmrs/host/instance.go: handleRequestStream, handleRequestChannel"]}
{"id": "C110", "title": "The input of a channel crosses a mesh", "statement": "A module of a mesh calls a channel it imports with an input that ends once. If none of the input reaches the caller's host before the handler of the import runs there, the relayed call subscribes to that handler's input before anything reaches it, and neither call is cancelled, then the handler invoked on the other instance is one its module registered for this operation, its payload is the caller's but for the first four bytes of the metadata, and at every moment its input was given a beginning of what the caller's input emitted since the call was first requested from, in that order; all of it, values, completion or error, when everything has arrived; a subscriber of that input who subscribed before anything reached it and did not cancel has then seen what the caller's input emitted. Without the first condition this fails.", "quantifier": "all meshes that load, all pairs of instances, all runs of both with frame buffers of any size that suffices, all schedules and users of the processor between them, all inputs", "why_tests_cant": "A test sees one mesh, one interleaving of four ends and a few values; the statement is about every prefix of every run and shows that nothing is reordered, duplicated or invented over two hops.", "anchors": ["transport/wasmrs/mesh/mesh.go: destination.RequestChannel", "proxy/flux.go: streamFlux.Request", "transport/wasmrs/host/instance.go: handleRequestChannel", "transport/wasmrs/guest/guest.go: handleRequestChannel", "rx/flux/processor.go"]}
{"id": "C111", "title": "Typed streams and channels across a mesh", "statement": "A module of a mesh calls a stream or channel it imports, and another module's service answers with a typed flux. When everything has arrived at both instances, the subscriber of the flux that the caller's client returned has seen what it would have seen of the service's own flux. If the call is a channel with a typed input, under the conditions of C110, the service invoked was registered for that operation by its module and, when everything has arrived, the subscriber of its input has seen what it would have seen of the caller's input.", "quantifier": "all meshes that load, all pairs of instances and runs of both, all fluxes and schedules, all values that their codec gives back", "why_tests_cant": "A test passes a few values through one mesh under one schedule; here three codec steps, three subscriptions and two frame channels are composed for all of them.", "anchors": ["transport/wasmrs/mesh/mesh.go: destination.RequestStream, destination.RequestChannel", "transport/wasmrs/example/counter.go", "transport/wasmrs/example/uppercase.go", "proxy/flux.go: streamFlux.Request", "transport/wasmrs/host/instance.go: handleRequestStream, handleRequestChannel", "transport/wasmrs/guest/guest.go: handleRequestStream, handleRequestChannel"]}
