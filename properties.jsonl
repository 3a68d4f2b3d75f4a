{"id": "C01", "title": "Parameter encode/decode round-trip", "statement": "Encoding a parameter built with NewParam and decoding the bytes with params.Parse gives back the same tag (as a 16-bit value), the same value bytes and the same Length, whenever the value has at most 65531 bytes; followed by any further bytes the result is unchanged.", "quantifier": "every tag, every value of length 0..65531, every trailing byte string", "why_tests_cant": "The value space is unbounded and the padding/length arithmetic depends on the length modulo 4 and modulo 65536.", "anchors": ["messages/params/params.go:NewParam", "messages/params/params.go:Param.MarshalBinary", "messages/params/params.go:Parse"]}
{"id": "C02", "title": "Parameter wire format", "statement": "The bytes produced for a parameter are exactly: tag (2 bytes big-endian), Length field (2 bytes big-endian), the value, then 0 to 3 zero bytes so that the total is a multiple of 4; MarshalLen is exactly the number of bytes produced.", "quantifier": "every parameter", "why_tests_cant": "Tests compare a handful of literals; the claim is about every value length and every byte.", "anchors": ["messages/params/params.go:Param.MarshalBinary", "messages/params/params.go:Param.MarshalTo", "messages/params/params.go:Param.MarshalLen", "messages/params/params.go:Param.Padding"]}
{"id": "C03", "title": "Oversized parameters are not representable", "statement": "A parameter value of more than 65531 bytes is silently given a wrapped Length; encoding never reports an error, and decoding the encoding never gives back the value. (The boundary 65531 of C01 is exact.)", "quantifier": "every value longer than 65531 bytes", "why_tests_cant": "Needs all lengths beyond 2^16, where uint16 arithmetic wraps.", "anchors": ["messages/params/params.go:Param.SetLength", "messages/params/params.go:Param.MarshalBinary"]}
{"id": "C04", "title": "Parameter decoding is total and exact", "statement": "params.Parse never panics. It succeeds exactly when the input has at least 4 bytes and the Length field is between 4 and the input length; the result is then the tag, the Length and precisely the bytes between offset 4 and Length. Fewer than 4 bytes is reported as too short, everything else as invalid length.", "quantifier": "every byte string", "why_tests_cant": "The input space is all byte strings, including adversarial ones; fuzzing samples it only.", "anchors": ["messages/params/params.go:Parse", "messages/params/params.go:Param.UnmarshalBinary"]}
{"id": "C05", "title": "Parameter list round-trip", "statement": "Decoding the concatenated encoding of a list of well-formed parameters yields that list, in order.", "quantifier": "every finite list of well-formed parameters", "why_tests_cant": "Unbounded list length; interaction of padding with following parameters.", "anchors": ["messages/params/params.go:MarshalMultiParams", "messages/params/params.go:ParseMultiParams"]}
{"id": "C06", "title": "Parameter list decoding accepts exactly the TLV grammar", "statement": "ParseMultiParams terminates without panicking on every input; it returns a list exactly when the input is a sequence of TLVs each followed by padding to 4 bytes, where a TLV whose padding is cut off by the end of the input ends the list; otherwise it returns an error.", "quantifier": "every byte string", "why_tests_cant": "Termination and acceptance for all inputs; the tail case (missing padding) is easy to miss.", "anchors": ["messages/params/params.go:ParseMultiParams"]}
{"id": "C07", "title": "Fixed-size parameter accessors invert their constructors", "statement": "For each 32-bit parameter kind the accessor applied to the constructor's result returns the given value; for the 24-bit kinds it returns the low 24 bits; for the 8-bit kind the byte; and every accessor returns zero (the empty list for lists and strings) on a parameter with another tag.", "quantifier": "every value and every parameter kind", "why_tests_cant": "2^32 values times every kind; bit masking on boundaries.", "anchors": ["messages/params/asp-identifier.go", "messages/params/correlation-id.go", "messages/params/traffic-mode-type.go", "messages/params/error-code.go", "messages/params/network-appearance.go", "messages/params/local-rk-identifier.go", "messages/params/registration-status.go", "messages/params/deregistration-status.go", "messages/params/status.go", "messages/params/destination-pointcode.go", "messages/params/concerned-destination.go", "messages/params/congestion-indications.go"]}
{"id": "C08", "title": "Multi-value parameters round-trip; first-value accessors need a value", "statement": "RoutingContexts, AffectedPointCodes and OriginatingPointCodeList return exactly the list given to the constructor. RoutingContext()/AffectedPointCode() return the first element of a non-empty list and panic when the parameter (built or received) carries no complete 32-bit word.", "quantifier": "every list of 32-bit values; every parameter with the right tag", "why_tests_cant": "Unbounded lists; the panic depends on received bytes.", "anchors": ["messages/params/routing-context.go", "messages/params/affected-pointcode.go", "messages/params/originating-point-code-list.go", "messages/params/params.go:newMultiUint32ValParam"]}
{"id": "C09", "title": "Composite 32-bit parameters keep their halves apart", "statement": "Cause and user identity of a UserCause parameter, and the type and info of a Status parameter, are recovered separately from the combined 32-bit value, for every pair of 16-bit values.", "quantifier": "every pair of 16-bit halves", "why_tests_cant": "2^32 combinations of shifted/masked halves.", "anchors": ["messages/params/user-cause.go", "messages/params/status.go"]}
{"id": "C10", "title": "ServiceIndicators accessor over-returns", "statement": "ServiceIndicators(NewServiceIndicators(s...)) always starts with s but is followed by one to four zero indicators (never zero of them): the list given is never the list returned, and a list whose length is a multiple of 4 costs a full extra word on the wire.", "quantifier": "every list of service indicators", "why_tests_cant": "The violation holds for all lengths; one literal cannot show that no length works.", "anchors": ["messages/params/service-indicators.go", "messages/params/params.go:newMultiUint8ValParam"]}
{"id": "C11", "title": "Protocol Data payload round-trip", "statement": "The payload (OPC, DPC, SI, NI, MP, SLS, user data) put into a Protocol Data parameter comes back unchanged from ProtocolData(); a parameter with another tag is refused, a value shorter than 12 bytes is refused, and any other value is accepted with the user data being everything after the 12th byte.", "quantifier": "every payload; every parameter", "why_tests_cant": "Unbounded user data and all header values.", "anchors": ["messages/params/protocol-data.go"]}
{"id": "C12", "title": "Nested registration parameters round-trip", "statement": "RoutingKey, RegistrationResult and DeregistrationResult built from their sub-parameters decode to the same sub-parameters (RoutingKey: provided at least three are present; fewer are refused by its own decoder). Of arbitrary received values they accept exactly: for RoutingKey three or more parameters all of the seven kinds, the last of a kind winning; for RegistrationResult any three parameters; for DeregistrationResult any two, the last of a kind winning; all else is an error, never a panic: ErrInvalidType for a parameter of another kind and for a foreign sub-parameter of a RoutingKey, ErrInvalidLength for a wrong number of sub-parameters, otherwise that of the list decoder.", "quantifier": "every choice of present sub-parameters of each kind, every value", "why_tests_cant": "Exponential presence combinations times unbounded values.", "anchors": ["messages/params/routing-key.go", "messages/params/registration-result.go", "messages/params/deregistration-result.go", "messages/params/params.go:newNestedParam"]}
{"id": "C13", "title": "Header round-trip and format", "statement": "A common header encodes as version, reserved, class, type, 4-byte big-endian length, payload, and decodes back to the same fields; fewer than 8 bytes are refused; the Length field is not checked against the actual length.", "quantifier": "every header value; every byte string", "why_tests_cant": "All byte strings; the missing check needs an input where Length disagrees.", "anchors": ["messages/header.go"]}
{"id": "C14", "title": "Message encode/decode round-trip for every message type", "statement": "For each typed message constructor (DATA, DUNA, DAVA, DAUD, SCON, DUPU, DRST, ASP Up/Down/Active/Inactive and their acks, BEAT, BEAT ACK, ERR, NTFY), encoding and then messages.Parse returns the same message type with exactly the same parameters, absent ones staying absent.", "quantifier": "every combination of absent/present parameters with any well-formed values of the right kind", "why_tests_cant": "19 types, 2^k presence combinations, unbounded values.", "anchors": ["messages/message.go:Parse", "messages/data.go", "messages/duna.go", "messages/dava.go", "messages/daud.go", "messages/scon.go", "messages/dupu.go", "messages/drst.go", "messages/asp-up.go", "messages/asp-up-ack.go", "messages/asp-down.go", "messages/asp-down-ack.go", "messages/asp-active.go", "messages/asp-active-ack.go", "messages/asp-inactive.go", "messages/asp-inactive-ack.go", "messages/heartbeat.go", "messages/heartbeat-ack.go", "messages/error.go", "messages/notify.go"]}
{"id": "C15", "title": "Message wire format and length field", "statement": "The bytes produced for a typed message are the 8-byte header (with the class/type of that message and Length equal to the total number of bytes) followed by the encodings of the present parameters in the fixed order of that message type; MarshalLen equals the number of bytes, which is a multiple of 4.", "quantifier": "every message built by a typed constructor whose total size is below 2^32", "why_tests_cant": "All presence combinations and sizes.", "anchors": ["messages/message.go", "messages/header.go", "messages/data.go:Data.MarshalTo", "messages/scon.go:Scon.MarshalTo", "messages/error.go:Error.MarshalTo"]}
{"id": "C16", "title": "Parsing never panics", "statement": "messages.Parse returns a message or an error on every byte string; it never panics and always terminates.", "quantifier": "every byte string", "why_tests_cant": "Fuzzing samples; slicing bounds must hold for all inputs.", "anchors": ["messages/message.go:Parse"]}
{"id": "C17", "title": "Dispatch of defined class/type pairs", "statement": "A decodable packet whose class and type are one of the 19 defined pairs is returned as exactly that message type, and a packet with class below 16 and type below 16 that is not defined is returned as a Generic message with class and type preserved.", "quantifier": "every packet with class and type below 16", "why_tests_cant": "All 256 pairs times all packet contents.", "anchors": ["messages/message.go:Parse", "messages/message.go:combine"]}
{"id": "C18", "title": "Dispatch aliases undefined class/type pairs onto defined messages", "statement": "It is NOT the case that only the 19 defined pairs are returned as typed messages: class and type are folded into one byte, so e.g. class 0x13/type 1 (undefined) is handled as ASP Up; the set of packets treated as each typed message is exactly the set with ((16*class) mod 256) OR type equal to that message's code.", "quantifier": "every class/type pair", "why_tests_cant": "Needs the exact preimage over all 65536 pairs; no test enumerates undefined pairs.", "anchors": ["messages/message.go:combine", "messages/message.go:Parse"]}
{"id": "C19", "title": "Duplicate and foreign parameters in typed messages", "statement": "When a typed message is decoded, the last occurrence of a parameter wins, and one parameter of a kind not allowed in that message makes the whole message an error (invalid parameter); otherwise decoding succeeds.", "quantifier": "every parameter sequence for every message type", "why_tests_cant": "Unbounded sequences and all 65536 tags.", "anchors": ["messages/data.go:Data.UnmarshalBinary", "messages/notify.go:Notify.UnmarshalBinary", "messages/error.go:Error.UnmarshalBinary"]}
{"id": "C20", "title": "Length field is ignored when decoding", "statement": "Changing the 4 bytes of the header Length field of any packet changes neither whether it decodes nor its type and parameters; so a Length that disagrees with the real size is accepted.", "quantifier": "every byte string of at least 8 bytes and every Length value", "why_tests_cant": "Universal non-interference over all packets.", "anchors": ["messages/header.go:Header.UnmarshalBinary", "messages/message.go:Parse"]}
{"id": "C21", "title": "MarshalTo respects its buffer", "statement": "MarshalTo of a typed message returns an error without touching the buffer when it is shorter than MarshalLen, and otherwise writes exactly the encoding in the first MarshalLen bytes and leaves the rest unchanged. Param.MarshalTo instead panics when the buffer capacity is below MarshalLen and leaves the padding bytes of a larger buffer unwritten.", "quantifier": "every message, every parameter, every buffer", "why_tests_cant": "All buffer sizes and contents.", "anchors": ["messages/data.go:Data.MarshalTo", "messages/header.go:Header.MarshalTo", "messages/params/params.go:Param.MarshalTo"]}
{"id": "C22", "title": "Re-encoding of decoded packets", "statement": "Re-encoding a decoded Generic message, or a typed message whose parameters arrive at most once each and in the defined order, with zero padding, gives back the received bytes exactly.", "quantifier": "every decodable packet of that form", "why_tests_cant": "All packets.", "anchors": ["messages/message.go:Parse", "messages/generic.go", "messages/data.go:Data.MarshalTo"]}
{"id": "C23", "title": "Generic messages", "statement": "A Generic message built with New from any parameters encodes with the given version/class/type and decodes through ParseGeneric (and through Parse when the pair is undefined and below 16) to the same parameters.", "quantifier": "every version, class, type and parameter list", "why_tests_cant": "Unbounded parameter lists.", "anchors": ["messages/generic.go"]}
{"id": "C24", "title": "Point code number -> text -> number", "statement": "For each variant except 4-4-6, formatting a number and parsing the text gives the number reduced to the variant's bit length, with every printed component within its field width.", "quantifier": "every 32-bit number and every supported variant", "why_tests_cant": "2^32 values times 9 variants with shifts and masks.", "anchors": ["pc/pc.go:NewPointCode", "pc/pc.go:NewPointCodeFrom", "pc/pc.go:PointCode.Uint32", "pc/pc.go:PointCode.String"]}
{"id": "C25", "title": "Point code text -> number", "statement": "Parsing a text with the right number of components, each within its field, yields the number whose fields are those components (most significant first), and the stored text formats that number; a wrong component count or a non-numeric component yields nil.", "quantifier": "every component list for each supported variant", "why_tests_cant": "All component combinations.", "anchors": ["pc/pc.go:NewPointCodeFrom", "pc/pc.go:convStrToRaw"]}
{"id": "C26", "title": "Point code range violations", "statement": "It is NOT the case that a point code produced from text fits the variant's bit length, nor that distinct in-range points have distinct text: components are not range-checked (README's own 4-3-7 '1-234-5' gives 29957 >= 2^14), and variant 4-4-6 maps every number to 0-0-0 and every text to 0.", "quantifier": "existential witnesses; for 4-4-6 all numbers", "why_tests_cant": "The existing tests never cross field boundaries.", "anchors": ["pc/pc.go:Variant.BitLength", "pc/pc.go:convStrToRaw", "README.md"]}
{"id": "C27", "title": "ConvertTo", "statement": "ConvertTo changes the text to the formatting of the same number in the new variant and leaves Uint32() and Variant() unchanged; converting back restores the canonical text.", "quantifier": "every point code and every pair of supported variants", "why_tests_cant": "All values and variant pairs.", "anchors": ["pc/pc.go:PointCode.ConvertTo"]}
{"id": "C28", "title": "Stream choice for user data", "statement": "The SCTP stream chosen for Write/WritePD is between 1 and MaxMessageStreamID() whenever that is at least 1; with an association of a single outbound stream every Write panics.", "quantifier": "every negotiated stream count and every random draw", "why_tests_cant": "Depends on a random number; tests cannot cover all draws.", "anchors": ["conn.go:Conn.chooseStreamID", "conn.go:Conn.Write", "client.go:Dial"]}
{"id": "C29", "title": "Write return value and effect", "statement": "On an active connection a successful Write(b)/WritePD sends exactly one DATA message carrying the configured NA, RC, correlation id and (OPC, DPC, SI, NI, MP, SLS, b); outside the Active state nothing is sent and ErrNotEstablished is returned. The returned count is twice the encoded message length, never len(b) (io.Writer's contract is violated for every b).", "quantifier": "every configuration, state and payload", "why_tests_cant": "All payloads; the wrong count is invisible to tests that ignore n.", "anchors": ["conn.go:Conn.Write", "conn.go:Conn.WriteToStream", "conn.go:Conn.WritePD", "conn.go:Conn.WritePDToStream", "conn.go:Conn.WriteSignal"]}
{"id": "C30", "title": "Read return value", "statement": "Read fills the buffer with the leading bytes of the next payload and returns the payload length; if the buffer is shorter the rest of the payload is lost and the returned n exceeds len(b).", "quantifier": "every buffer and payload", "why_tests_cant": "All sizes.", "anchors": ["conn.go:Conn.Read", "conn.go:Conn.ReadPD"]}
{"id": "C31", "title": "End-to-end payload delivery (codec)", "statement": "The bytes a Write(b) puts on the wire are decoded by the peer as a DATA message whose Protocol Data yields exactly b and the writer's configured OPC, DPC, SI, NI, MP and SLS, for every b of at most 65519 bytes; the packet fits the receiver's 1500-byte read buffer exactly when b is at most a computable bound.", "quantifier": "every configuration with well-formed parameters and every payload", "why_tests_cant": "Composition of two endpoints over all payloads.", "anchors": ["conn.go:Conn.WriteToStream", "transfer.go:Conn.handleData", "messages/data.go", "messages/params/protocol-data.go"]}
{"id": "C32", "title": "Reply table of the ASP state machine", "statement": "For each received message and each state the endpoint's reaction is exactly the documented table: ASP Up in Down is acked, ASP Down in Inactive/Active is acked, ASP Active in Inactive is acked, ASP Inactive in Active is acked, BEAT in Active is echoed, acks are consumed, and in the other states an Error 'unexpected message' carrying the configured RC/NA and OPC is sent; SSNM/RKM/other messages get Error 'unsupported message type' with the first 40 octets.", "quantifier": "every message and every state", "why_tests_cant": "All messages times all states times all parameters.", "anchors": ["fsm.go:Conn.handleSignals", "aspsm.go", "asptm.go", "management.go", "errors.go:Conn.handleErrors"]}
{"id": "C33", "title": "Heartbeat is echoed", "statement": "The reply to a BEAT received in Active is the same packet with only the type octet changed to BEAT ACK, for every BEAT whose parameter is given at most once with zero padding.", "quantifier": "every such BEAT packet", "why_tests_cant": "All heartbeat data.", "anchors": ["asptm.go:Conn.handleHeartbeat", "conn.go:Conn.WriteSignal", "messages/heartbeat.go"]}
{"id": "C34", "title": "Unexpected messages still change the state", "statement": "It is NOT the case that a message refused with 'unexpected message' leaves the ASP state alone: the state always becomes the one named by the message. E.g. ASP Active in Down makes the connection Active (and Dial/Accept succeed), a duplicate ASP Up in Active makes it Inactive, ASP Down Ack in Active makes it Down.", "quantifier": "every state-changing message in every state", "why_tests_cant": "Tests cover expected sequences only.", "anchors": ["fsm.go:Conn.handleSignals"]}
{"id": "C35", "title": "One packet at a time", "statement": "In every execution at most one received packet is between being read from SCTP and having its state update handed to the monitor, and the monitor never reads the next packet meanwhile; so state changes happen in arrival order.", "quantifier": "every interleaving of all goroutines, every packet sequence, every user action", "why_tests_cant": "Schedules are unbounded; tests see a few.", "anchors": ["fsm.go:Conn.monitor", "fsm.go:Conn.handleSignals"]}
{"id": "C36", "title": "State range", "statement": "In every execution the connection's state is ASP Down, Inactive or Active; the SCTP-CDI/RI states and the errors tied to them never occur.", "quantifier": "every execution", "why_tests_cant": "Needs all executions.", "anchors": ["fsm.go", "conn.go:Conn.State"]}
{"id": "C37", "title": "No invention, no duplication of user data", "statement": "In every execution the payloads returned by Read/ReadPD form a sub-multiset of the payloads of the DATA messages received, so nothing is invented or delivered twice.", "quantifier": "every interleaving and every packet sequence", "why_tests_cant": "All schedules.", "anchors": ["transfer.go:Conn.handleData", "conn.go:Conn.ReadPD"]}
{"id": "C38", "title": "User data order is not preserved", "statement": "It is NOT the case that payloads are delivered in the order they were received: an execution with two DATA packets delivers the second before the first, with no fault or error.", "quantifier": "existential over schedules", "why_tests_cant": "A race that tests hit rarely.", "anchors": ["fsm.go:Conn.handleSignals", "transfer.go:Conn.handleData"]}
{"id": "C39", "title": "Undecodable packets stop reception for good", "statement": "It is NOT the case that undecodable packets are ignored: once a packet that does not decode has been handled, or one with version other than 1, no further packet is ever read from the association in any continuation.", "quantifier": "every state in which the packet is being handled, every continuation", "why_tests_cant": "A liveness failure: needs all continuations.", "anchors": ["fsm.go:Conn.monitor", "fsm.go:Conn.handleSignals"]}
{"id": "C40", "title": "Reception stays alive on valid traffic", "statement": "As long as every received packet is at most 1500 octets long, decodes, has version 1, is not a BEAT ACK and, if it is DATA, has a decodable Protocol Data, and neither Close, cancellation, a failing system call of the library nor a heartbeat timeout happens, the connection never loses the ability to read: from every reachable state internal steps lead to waiting for the next packet, unless a second activation (C41) happened; and the only panic is a Write on an association with a single outbound stream.", "quantifier": "every such execution", "why_tests_cant": "Progress over all schedules.", "anchors": ["fsm.go:Conn.monitor", "fsm.go:Conn.handleSignals"]}
{"id": "C41", "title": "Re-activation deadlocks the connection", "statement": "It is NOT the case that a connection can go Active -> Inactive -> Active: when the second activation is processed after Dial/Accept returned, the monitor blocks forever holding the state lock, and State, Read, Write and Close calls never complete in any continuation.", "quantifier": "every continuation after a second activation", "why_tests_cant": "A permanent deadlock needs all continuations.", "anchors": ["fsm.go:Conn.handleStateUpdateAsClient", "fsm.go:Conn.handleStateUpdateAsServer", "client.go:Dial"]}
{"id": "C42", "title": "Success of Dial/Accept", "statement": "Dial/Accept return a connection only if an ASP Active or ASP Active Ack message has been received; they may do so although that message was answered with Error 'unexpected message' and no ASP Up exchange took place.", "quantifier": "every execution; existential for the second half", "why_tests_cant": "All executions.", "anchors": ["client.go:Dial", "server.go:Listener.Accept", "fsm.go:Conn.handleStateUpdate"]}
{"id": "C43", "title": "Messages sent by a client/server are justified", "statement": "A server never sends ASP Up/ASP Active; a client sends ASP Up only while Down and ASP Active only while Inactive; every ack sent answers a received message of the matching kind, with at most one ack per received message.", "quantifier": "every execution", "why_tests_cant": "All schedules and packet sequences.", "anchors": ["fsm.go", "aspsm.go", "asptm.go"]}
{"id": "C44", "title": "Read and Write after Close", "statement": "After Close has returned, State() is never Active again and every later Write/Read returns ErrNotEstablished or the process has panicked.", "quantifier": "every continuation after Close", "why_tests_cant": "Races with in-flight handlers.", "anchors": ["conn.go:Conn.Close", "conn.go:Conn.Write", "conn.go:Conn.Read"]}
{"id": "C45", "title": "Close races with traffic panic the process", "statement": "It is NOT the case that Close is safe while packets are in flight: executions exist where Close is followed by a panic (send on closed channel, or close of closed channel) in a library goroutine; without any packet in flight Close and repeated Close never panic.", "quantifier": "existential over schedules; every quiescent state for the positive half", "why_tests_cant": "Race conditions.", "anchors": ["conn.go:Conn.Close", "fsm.go:Conn.monitor", "transfer.go:Conn.handleData"]}
{"id": "C46", "title": "A peer can crash the process", "statement": "It is NOT the case that no packet crashes the process: a DATA message without Protocol Data, or a BEAT ACK without Heartbeat Data, received in Active always dereferences nil; no other packet handled in a connection that is not being closed panics.", "quantifier": "every packet in every state", "why_tests_cant": "All packets.", "anchors": ["transfer.go:Conn.handleData", "asptm.go:Conn.handleHeartbeatAck"]}
{"id": "C47", "title": "Heartbeat expiry does not close an idle connection", "statement": "It is NOT the case that a missed BEAT ACK or a cancelled context closes the connection: while the monitor waits for a packet, neither has any effect; if the peer stays silent the connection stays open and Active in every continuation.", "quantifier": "every continuation without incoming packets", "why_tests_cant": "Requires waiting forever.", "anchors": ["asptm.go:Conn.heartbeat", "fsm.go:Conn.monitor"]}
{"id": "C48", "title": "BEAT ACK content is not enforced", "statement": "It is NOT the case that only a BEAT ACK with the sent data satisfies the heartbeat: any BEAT ACK wakes the heartbeat; with the heartbeat disabled a BEAT ACK blocks reception forever.", "quantifier": "existential; every continuation for the second half", "why_tests_cant": "Liveness over all continuations.", "anchors": ["fsm.go:Conn.handleSignals", "asptm.go:Conn.handleHeartbeatAck", "asptm.go:Conn.heartbeat"]}
{"id": "C49", "title": "Two endpoints always complete the handshake", "statement": "A client and a server of this library, heartbeat disabled and handshake messages of at most 1500 octets, connected by a working transport: every interleaving ends after a bounded number of steps (at most 44), no endpoint panics, refuses a message or closes, and at the end both are Active and Dial and Accept have succeeded.", "quantifier": "every pair of configurations with well-formed parameters, every interleaving of both endpoints and the transport", "why_tests_cant": "All schedules of a distributed handshake.", "anchors": ["client.go:Dial", "server.go:Listener.Accept", "fsm.go", "aspsm.go", "asptm.go"]}
{"id": "C50", "title": "Close before establishment is not reported", "statement": "It is NOT the case that a transport failure before establishment makes Dial return ErrFailedToEstablish: if it happens in Down, Dial can only end by its 10 s timer (ErrTimeout); if it happens in Inactive, ErrFailedToEstablish is possible.", "quantifier": "every continuation", "why_tests_cant": "Needs all continuations.", "anchors": ["conn.go:Conn.Close", "client.go:Dial", "server.go:Listener.Accept"]}
{"id": "C51", "title": "Default configuration crashes Dial/Accept", "statement": "Dial and Accept panic for every configuration without HeartbeatInfo, in particular for NewConfig(...) with any setters other than EnableHeartbeat; with HeartbeatInfo present, interval zero disables the heartbeat.", "quantifier": "every configuration", "why_tests_cant": "All configurations.", "anchors": ["config.go:NewConfig", "client.go:Dial", "server.go:Listener.Accept"]}
{"id": "C52", "title": "EnableLogging never returns", "statement": "EnableLogging self-deadlocks on its mutex for every argument, and afterwards every logging call blocks; SetLogger, DisableLogging and logf always return when the mutex is free.", "quantifier": "every argument and every call sequence", "why_tests_cant": "A hang is not observable by a terminating test.", "anchors": ["logger.go"]}
{"id": "C53", "title": "Shared listener configuration cross-talk", "statement": "It is NOT the case that a correct BEAT ACK is accepted: because connections accepted by one listener share the stored heartbeat data, a beat of another connection in between makes the correct ack be refused as unexpected.", "quantifier": "existential over executions", "why_tests_cant": "Needs two connections and a precise interleaving.", "anchors": ["server.go:Listener.Accept", "asptm.go:Conn.heartbeat", "asptm.go:Conn.handleHeartbeatAck"]}
{"id": "C54", "title": "Client re-sends handshake messages on unrelated traffic", "statement": "In the Inactive state every processed message that keeps the state (NTFY, ERR, unsupported ones) makes a client send another ASP Active, and in Down another ASP Up: the number of ASP Active sent is exactly the number of state updates to Inactive processed with a working transport.", "quantifier": "every execution", "why_tests_cant": "All packet sequences.", "anchors": ["fsm.go:Conn.handleStateUpdateAsClient", "aspsm.go:Conn.initiateASPSM", "asptm.go:Conn.initiateASPTM"]}
{"id": "C55", "title": "DisableLogging silences the logger object", "statement": "DisableLogging changes the output of the logger object currently in use (also one supplied by the user through SetLogger) for good: in every continuation that logger stays silenced, and it is NOT the case that SetLogger with the same logger turns its output on again.", "quantifier": "every call sequence; existential for the second half", "why_tests_cant": "All call sequences.", "anchors": ["logger.go:DisableLogging", "logger.go:SetLogger"]}
{"id": "C56", "title": "Network names", "statement": "Dial and Listen accept exactly the network names m3ua, m3ua4 and m3ua6, and use the SCTP networks sctp, sctp4 and sctp6 with the same suffix.", "quantifier": "every string", "why_tests_cant": "All strings.", "anchors": ["conn.go:netMap", "client.go:Dial", "server.go:Listen"]}
{"id": "C57", "title": "No user data is lost inside the connection", "statement": "As long as the context is not cancelled and nothing panics, the payloads of the DATA packets read are, as a multiset, exactly the payloads delivered to Read/ReadPD, those waiting in the buffer, those refused with Error 'unexpected message' and those still being processed; when no packet or data goroutine is running the last group is empty.", "quantifier": "every interleaving and every packet sequence", "why_tests_cant": "A conservation law over all schedules.", "anchors": ["transfer.go:Conn.handleData", "fsm.go:Conn.handleSignals", "conn.go:Conn.ReadPD"]}
{"id": "C58", "title": "What is written is read", "statement": "On two active connections: Write(b) sends exactly one packet, and if that packet fits 1500 octets and arrives at an idle active peer, the peer's own steps lead to a state where Read with a large enough buffer returns len(b) and exactly b (with the writer's OPC, DPC, SI, NI, MP and SLS in ReadPD), for every configuration with well-formed parameters.", "quantifier": "every configuration, payload, stream draw and pair of idle active states", "why_tests_cant": "All payloads, configurations and states; composition of two endpoints.", "anchors": ["conn.go:Conn.Write", "conn.go:Conn.Read", "transfer.go:Conn.handleData", "messages/data.go"]}
{"id": "C59", "title": "An enabled heartbeat may never start", "statement": "It is NOT the case that a connection with enabled heartbeat sends BEATs: if the heartbeat goroutine has not reached its Wait when Dial/Accept is told of the establishment, no BEAT is ever sent, in any continuation; if it has reached it, it is woken and can send one.", "quantifier": "every continuation; every state at establishment", "why_tests_cant": "A lost wake-up depends on the scheduler and absence of BEATs is a statement about all futures.", "anchors": ["fsm.go:Conn.monitor", "fsm.go:Conn.handleStateUpdateAsClient", "asptm.go:Conn.heartbeat"]}
{"id": "C60", "title": "Truncated packets", "statement": "A well-formed packet cut after n octets decodes exactly when the cut lies after the header and at the end of a parameter or inside its padding; then Parse reports no error and returns the message made of the parameters before the cut.", "quantifier": "every well-formed packet of any class and type, every n", "why_tests_cant": "All packets and all cut positions.", "anchors": ["messages/message.go:Parse", "messages/header.go:ParseHeader", "messages/params/params.go:ParseMultiParams"]}
{"id": "C61", "title": "An oversized Write stops the receiver", "statement": "A Write whose DATA packet exceeds 1500 octets is sent without error, but the peer receives pieces of which the first or the second is invalid, and after that the peer reads nothing any more: packets queued behind it are never processed.", "quantifier": "every configuration with well-formed parameters, every oversized payload up to 65519 octets, every state of the receiver, every continuation", "why_tests_cant": "All payload sizes relative to the 1500-octet buffer and all futures of the receiver.", "anchors": ["conn.go:Conn.WriteToStream", "fsm.go:Conn.monitor", "messages/message.go:Parse"]}
{"id": "C62", "title": "Packets are read once and in order", "statement": "In every execution the sequence of packets read by the connection, followed by those waiting in the socket, is exactly the sequence of packets that arrived, those above 1500 octets cut in pieces of 1500 octets.", "quantifier": "every execution", "why_tests_cant": "All interleavings and packet sequences.", "anchors": ["fsm.go:Conn.monitor"]}
{"id": "C63", "title": "Exported code points mean what RFC 4666 says", "statement": "A parameter built from the package's exported constants carries the number RFC 4666 assigns to that meaning, for all error codes, registration and deregistration statuses, traffic modes and status type/information pairs. It is NOT the case for the MTP3 users of User/Cause (every one of the eight constants has another number; ISUP is read as SCCP and Broadband ISUP as ISUP) nor for the service indicators beyond SCCP, TUP and ISUP (AAL type 2 signalling is read as Satellite ISUP, gateway control protocol as AAL type 2).", "quantifier": "every exported constant of the nine const blocks, and every parameter built from one", "why_tests_cant": "The package's own tests encode and decode with the same constants, so a wrong number is invisible to them; only a comparison with the protocol's numbers and the receiver's reading shows it.", "anchors": ["messages/params/error-code.go", "messages/params/registration-status.go", "messages/params/deregistration-status.go", "messages/params/traffic-mode-type.go", "messages/params/status.go", "messages/params/user-cause.go", "messages/params/protocol-data.go"]}
{"id": "C64", "title": "Decoding into a value that already holds a message", "statement": "UnmarshalBinary into a non-empty typed message keeps every parameter the new packet does not carry; a packet refused for a foreign parameter has stored the parameters in front of it; an undecodable body replaces only the header; fewer than 8 octets set the header to nil, after which Version, SetLength and MarshalBinary panic. A Generic collects the parameters of all packets decoded into it. It is NOT the case that the decoded message depends only on the packet.", "quantifier": "every message type, previous value and byte string", "why_tests_cant": "All previous values times all packets; tests decode into fresh values only.", "anchors": ["messages/data.go:Data.UnmarshalBinary", "messages/asp-up.go:AspUp.UnmarshalBinary", "messages/generic.go:Generic.UnmarshalBinary", "messages/header.go:ParseHeader", "messages/params/params.go:Param.UnmarshalBinary"]}
{"id": "C65", "title": "Edited messages are encoded with their stored lengths", "statement": "The encoding of any typed message value consists of the stored version, class, type and Length of its header and, in RFC order, of each parameter with its stored Length; after SetLength all Length fields are right whatever was edited before. It is NOT the case that encoding computes the lengths (a message whose parameter was replaced after construction is sent with the old ones and can be refused by Parse), nor that the class and type on the wire are those of the Go type.", "quantifier": "every message type, header and combination of parameters", "why_tests_cant": "All values a user can assemble by assigning fields.", "anchors": ["messages/data.go:Data.MarshalTo", "messages/data.go:Data.SetLength", "messages/header.go:Header.MarshalTo", "messages/params/params.go:Param.MarshalTo"]}
{"id": "C66", "title": "Typed decoders look at parameters only", "statement": "ParseData, ParseAspUp and the other typed decoders accept exactly the packets whose body is a sequence of parameters allowed in that message, whatever class and type the header holds, and return the last parameter of each kind. It is NOT the case that they refuse packets of another class or type.", "quantifier": "every message type and byte string", "why_tests_cant": "All packets of all types given to all decoders.", "anchors": ["messages/asp-up.go:ParseAspUp", "messages/data.go:ParseData", "messages/notify.go:ParseNotify"]}
{"id": "C67", "title": "Decoded values alias the input buffer", "statement": "Each decoded parameter's Data is a disjoint stretch of the caller's buffer, at the position the encoding prescribes: after the caller overwrites the buffer, Tag, Length and size of the parameter are unchanged and its Data is what the buffer holds there now. It is NOT the case that decoded messages are independent of the buffer.", "quantifier": "every byte string decoded and every later content of the buffer", "why_tests_cant": "All contents of the buffer before and after; a test sees only a buffer it does not reuse.", "anchors": ["messages/params/params.go:Param.UnmarshalBinary", "messages/params/params.go:ParseMultiParams"]}
{"id": "C68", "title": "Configuration values arrive in the messages", "statement": "For a configuration made by NewConfig followed by any setters, or by NewClientConfig/NewServerConfig, the octets of ASP Up, ASP Active and DATA are exactly the RFC 4666 messages in which each parameter holds the argument of the last setter of its kind (absent without one) and the protocol data holds the point codes, service indicator, network indicator, priority and SLS given to the constructor; Dial and Accept do not change them.", "quantifier": "every constructor, argument list and sequence of setters (at most 16382 routing contexts)", "why_tests_cant": "All sequences of setters and argument values; swapped or forgotten arguments of equal type.", "anchors": ["config.go:NewConfig", "config.go:NewClientConfig", "config.go:NewServerConfig", "config.go:Config.SetRoutingContexts", "config.go:Config.SetAspIdentifier", "config.go:Config.SetTrafficModeType", "config.go:Config.SetNetworkAppearance", "config.go:Config.SetCorrelationID"]}
{"id": "C69", "title": "Logging calls are linearisable", "statement": "SetLogger, DisableLogging and the package's internal logging, called concurrently, act as if executed one after the other in an order compatible with real time: the logger used by each message, the logger in use and the silenced loggers are those of the sequential execution. SetLogger(nil) installs a new logger.", "quantifier": "every number of goroutines and interleaving of calls (without EnableLogging, which never returns: C52)", "why_tests_cant": "All interleavings of any number of concurrent callers.", "anchors": ["logger.go:SetLogger", "logger.go:DisableLogging", "logger.go:logf"]}
{"id": "C70", "title": "Form and pace of heartbeats", "statement": "Every BEAT goes out on stream 0 of a connection with heartbeats enabled, as one RFC 4666 message with 128 octets of Heartbeat Data. Before the (n+1)st BEAT at least n BEAT ACKs have been received, and the connection has been established. It is NOT the case that the connection is Active whenever a BEAT is sent.", "quantifier": "every configuration, every interleaving of goroutines, packets, timers and failures", "why_tests_cant": "All interleavings of the heartbeat goroutine with reception, and sessions of any length.", "anchors": ["asptm.go:Conn.heartbeat", "fsm.go:Conn.monitor"]}
{"id": "C71", "title": "Correct BEAT ACKs are accepted", "statement": "On a connection whose configuration is not shared, from the second BEAT on, a BEAT ACK carrying the data of the last BEAT sent is accepted in Active, provided the peer has not sent more acks than it was sent BEATs, also if it arrives before the heartbeat goroutine has stored the data. It is NOT the case for the first BEAT: its correct ack is refused with an ERR when it is handled before the store.", "quantifier": "every execution and every moment at which the ack is handled", "why_tests_cant": "A race of a few instructions between writing the BEAT and storing its data.", "anchors": ["asptm.go:Conn.heartbeat", "asptm.go:Conn.handleHeartbeatAck"]}
{"id": "C72", "title": "After a failed Dial or Accept", "statement": "Once Dial or Accept has returned an error nothing more is read from or written to the association. If it failed because the connection was closed, its monitor has ended, and a monitor that waits for a packet at the timeout ends. It is NOT the case that the timeout always ends the monitor: one about to report the establishment stays for ever.", "quantifier": "every execution up to the failure and every continuation", "why_tests_cant": "All interleavings of the timeout with the handshake; the absence of an event for ever.", "anchors": ["client.go:Dial", "server.go:Listener.Accept", "fsm.go:Conn.monitor"]}
{"id": "C73", "title": "Goroutines after the end of a connection", "statement": "A goroutine that has an error or a state to report when the monitor has ended stays for ever, as does a heartbeat goroutine still waiting for the establishment. Close on an idle connection leaves the heartbeat goroutine behind if it is between two BEATs and the context is not cancelled; with the heartbeat disabled or waiting for its ack all goroutines can end, and then nothing of the connection runs. It is NOT the case that closing a connection ends all its goroutines.", "quantifier": "every state of the connection and every continuation", "why_tests_cant": "The absence of progress for ever, in all continuations.", "anchors": ["conn.go:Conn.Close", "fsm.go:Conn.monitor", "asptm.go:Conn.heartbeat"]}
{"id": "C74", "title": "Octets of Error messages", "statement": "An ERR sent by the monitor goes out on stream 0 and consists of exactly these parameters: code 1 alone for an invalid version; code 4 with the first 40 octets of the re-encoded message for an unsupported message; code 6 with the configured routing contexts, network appearance and originating point code for an unexpected message. The diagnostic information is the beginning of the offending packet if that is in canonical form. It is NOT the case for every packet, nor that an unknown message class is answered with the code for unsupported classes.", "quantifier": "every packet received in every reachable state, every configuration with well-formed routing contexts and network appearance", "why_tests_cant": "The set of offending packets and states is infinite, and the diagnostic depends on decoding and encoding again.", "anchors": ["errors.go:Conn.handleErrors", "errors.go:UnsupportedMessageError.first40Octets", "fsm.go:Conn.monitor"]}
{"id": "C75", "title": "User data between two endpoints", "statement": "Two endpoints of the library, the second receiving each at most once and in any order packets of at most 1500 octets that the first has sent. If the first writes only through Write and WriteToStream, the payloads the second hands to its user are, with multiplicity, among those whose Write returned without error, with the labels of the first one's configuration. If no packet is lost and the second is at rest, each of them has been delivered, waits for a Read, or was refused with an ERR. It is NOT the case that none is refused: data written right after Accept may overtake the ASP Active Ack.", "quantifier": "every configuration, every pair of executions, every reordering and loss", "why_tests_cant": "All interleavings of two endpoints and all behaviours of the association.", "anchors": ["conn.go:Conn.WriteToStream", "conn.go:Conn.ReadPD", "transfer.go:Conn.handleData", "fsm.go:Conn.monitor"]}
{"id": "C76", "title": "Texts of messages", "statement": "String of a typed or generic message shows its header and, in RFC order and under their names, its parameters, with decimal numbers and hexadecimal data; of DUNA, DAVA, DAUD, DRST and DUPU it shows the header only. A text of the first kind determines header and parameters, and received packets with the same text are the same packet. It is NOT the case that different messages built by the user always have different texts.", "quantifier": "every message, parameter and payload with values within the Go types; every pair of packets", "why_tests_cant": "Injectivity of the texts is a statement about all pairs of messages.", "anchors": ["messages/data.go:Data.String", "messages/generic.go:Generic.String", "messages/header.go:Header.String", "messages/params/params.go:Param.String", "messages/params/protocol-data.go:ProtocolDataPayload.String"]}
{"id": "C77", "title": "Names of messages", "statement": "A received message of one of the 19 known types has the RFC's names of its type and class; different types have different names and equal class names mean equal classes. It is NOT the case that a message of a known class always has the name of that class: of an unknown type it is Unknown.", "quantifier": "every packet, every pair of messages", "why_tests_cant": "All packets of all types; tests look at single messages.", "anchors": ["messages/message.go:M3UA", "messages/data.go:Data.MessageTypeName", "messages/generic.go:Generic.MessageClassName"]}
{"id": "C78", "title": "Deprecated methods", "statement": "Serialize, SerializeTo, DecodeFromBytes and Len of every type but SCON and DUPU encode and decode like their replacements. It is NOT the case for SCON and DUPU, which inherit those of the header: a new one is serialised as eight octets whose Length announces more, decoding leaves the parameters alone, and decoding into a zero value panics.", "quantifier": "every message with well-formed parameters, every octet string", "why_tests_cant": "All parameter values of all types; the two exceptions are not written in the code at all.", "anchors": ["messages/header.go:Header.Serialize", "messages/header.go:Header.DecodeFromBytes", "messages/scon.go:SignallingCongestion", "messages/dupu.go:DestinationUserPartUnavailable", "messages/data.go:Data.Serialize"]}
{"id": "C79", "title": "One more signal between two established endpoints", "statement": "A client and a server of the library, heartbeats disabled and their signals fitting the receive buffer, are connected to each other by a working association; after Dial or Accept has returned on one side its user calls WriteSignal once with a message that is not DATA, BEAT or BEAT ACK. The outcome depends only on the side and the message type. ASP Active, ASP Active Ack, ERR, NTFY and unsupported messages: the exchange ends after at most 212 steps with both sides Active. ASP Up, ASP Up Ack and ASP Inactive Ack sent by the client leave the client Active and the server Inactive, ASP Down Ack the server Down. It is NOT the case that ASP Inactive or ASP Down, sent by either side, can be followed by normal operation: both sides end blocked for ever, reading nothing, and no call except WriteSignal returns on either side. No side panics or closes.", "quantifier": "every pair of valid configurations, every interleaving, every moment of the call, every such message", "why_tests_cant": "All interleavings of two endpoints; permanent deadlock.", "anchors": ["fsm.go:Conn.handleStateUpdateAsClient", "fsm.go:Conn.handleStateUpdateAsServer", "aspsm.go:Conn.handleAspDown", "asptm.go:Conn.handleAspInactive", "conn.go:Conn.WriteSignal"]}
{"id": "C80", "title": "Endless exchanges", "statement": "It is NOT the case that every exchange between two connected endpoints of the library ends: when the user of the server sends one ASP Up, ASP Up Ack, ASP Down Ack or ASP Inactive Ack to an established client (RFC 4666 lets an SGP send the last two unsolicited), the endpoints exchange messages for ever: whatever has happened some step is possible, and any n steps deliver at least (n - 69)/13 packets.", "quantifier": "every pair of valid configurations, every interleaving, every moment of the call", "why_tests_cant": "Divergence is a statement about infinite executions.", "anchors": ["fsm.go:Conn.handleStateUpdateAsClient", "fsm.go:Conn.monitor", "fsm.go:Conn.handleErrors", "asptm.go:Conn.handleAspActive"]}
{"id": "C81", "title": "Established endpoints carry user data", "statement": "A client and a server of the library, heartbeats disabled, are connected to each other and their handshake is over. From then on both users make any number of calls of Read, ReadPD, Write, WriteToStream and State at any time, with payloads whose packet fits the receive buffer; goroutines are scheduled in any order and packets may overtake each other. Then neither endpoint panics, closes or leaves Active, no packet is refused, and the calls made so far are settled after at most 13 steps per call, whatever has happened before and in whatever order: every Write has returned a count and no error, every State has returned Active, every Read has returned data or is waiting with no data queued, and what one side wrote is, each payload once and with the routing label of the writer's configuration, exactly what the other side's Reads have returned plus what is queued for them (unless 65535 payloads that nobody reads fill the queue).", "quantifier": "every pair of valid configurations, every sequence of calls, every interleaving and order of delivery", "why_tests_cant": "Liveness and exact delivery over all interleavings of two endpoints, any number of goroutines and reordering.", "anchors": ["conn.go:Conn.Read", "conn.go:Conn.ReadPD", "conn.go:Conn.Write", "conn.go:Conn.WriteToStream", "transfer.go:Conn.handleData", "fsm.go:Conn.monitor", "fsm.go:Conn.handleSignals"]}
{"id": "C82", "title": "The dialogue of an endpoint does not depend on scheduling", "statement": "An endpoint with heartbeats disabled whose user makes no calls receives any sequence of messages other than DATA, BEAT and BEAT ACK. However its goroutines, their system calls and the arrivals are interleaved, it never panics or closes, it makes at most 8 steps plus 14 per packet, the kinds of the messages it has sent are a prefix of one list determined by the kinds of the messages received, and when nothing is left to do it has sent exactly that list and its state, the result of Dial/Accept and whether it is blocked are determined by the same sequence.", "quantifier": "every valid configuration, client and server, every sequence of received packets, every interleaving", "why_tests_cant": "Confluence over all interleavings; tests see one schedule.", "anchors": ["fsm.go:Conn.monitor", "fsm.go:Conn.handleSignals", "fsm.go:Conn.handleStateUpdate", "aspsm.go:Conn.handleAspUp", "asptm.go:Conn.handleAspActive", "management.go:Conn.handleNotify"]}
{"id": "C83", "title": "Dial succeeds with a conforming gateway", "statement": "A client with heartbeats disabled meets a signalling gateway that follows the ASP Up and ASP Active procedures of RFC 4666 4.3.4 (acknowledging repeated requests) and besides sends any k NTFY, ERR, SSNM or RKM messages at any time. However both are interleaved, the client never panics or closes, Dial never fails, no deadlock occurs, and after at most 128 + 161 k steps both are Active, everything sent has been received and Dial has returned success, although the client answers every such message before activation with another ASP Up or ASP Active.", "quantifier": "every valid configuration, every behaviour of such a gateway, every interleaving, every k", "why_tests_cant": "Universally quantified peer and schedule; termination.", "anchors": ["client.go:Dial", "fsm.go:Conn.monitor", "fsm.go:Conn.handleStateUpdateAsClient", "aspsm.go:Conn.handleAspUpAck", "asptm.go:Conn.handleAspActiveAck", "management.go:Conn.handleNotify"]}
{"id": "C84", "title": "Accept succeeds with a repeating ASP", "statement": "A peer sends ASP Up and then ASP Active, each at least once and repeated any number of times. However the server's goroutines are scheduled, it ends Active after at most 36 + 14 (i + j) steps for i + j repetitions, Accept has returned success, and it has sent ASP Up Ack, an ERR for each repeated ASP Up, ASP Active Ack, and an ERR for each repeated ASP Active, in this order (RFC 4666 asks for acknowledgements of the repetitions).", "quantifier": "every valid configuration, every number of repetitions, every interleaving", "why_tests_cant": "All interleavings and any number of repetitions.", "anchors": ["server.go:Listener.Accept", "aspsm.go:Conn.handleAspUp", "asptm.go:Conn.handleAspActive", "fsm.go:Conn.handleSignals"]}
{"id": "C85", "title": "Two endpoints stay up, with heartbeats and traffic", "statement": "A client and a server of the library, with heartbeats enabled or disabled on either side, run against each other from Dial and Accept on. Goroutines are scheduled in any order; packets for the server may overtake each other, and so may those for the client once Dial has returned; after that both users make any calls of Read, ReadPD, Write, WriteToStream and State with payloads that fit the receive buffer; the heartbeat Intervals elapse at any time. As long as no system call fails, neither endpoint panics or closes; each refuses at most one message, which is a BEAT ACK handled before the data of the first BEAT were noted, and none if its heartbeats are disabled; at most 136 steps are made plus 13 per call and 31 per Interval; and whatever has happened, once the pending steps have been made Dial and Accept have returned successfully, both ends are Active, no BEAT is waiting for its ack, every Write has returned without an error, and each side's user has received, or has queued, exactly what the other wrote.", "quantifier": "every pair of valid configurations, every sequence of calls, every interleaving of goroutines, timers and deliveries", "why_tests_cant": "Safety, termination and exact delivery over all interleavings of two endpoints with unboundedly many goroutines.", "anchors": ["client.go:Dial", "server.go:Listener.Accept", "asptm.go:Conn.heartbeat", "asptm.go:Conn.handleHeartbeat", "asptm.go:Conn.handleHeartbeatAck", "fsm.go:Conn.monitor", "conn.go:Conn.Read", "conn.go:Conn.Write"]}
{"id": "C86", "title": "Data written right after Accept", "statement": "It is NOT the case that what the user of a server writes is delivered provided Write returns without an error, no packet is lost and both ends are and remain Active afterwards: a DATA message sent as soon as Accept has returned may overtake the ASP Active Ack, which is sent on another stream; the client then refuses it, and the payload is lost without either user seeing an error. (If packets reach the client in order until Dial has returned this cannot happen: C85.)", "quantifier": "one execution; the positive part is C85", "why_tests_cant": "Depends on the order of delivery on different streams.", "anchors": ["transfer.go:Conn.handleData", "conn.go:Conn.WriteToStream", "asptm.go:Conn.handleAspActive", "fsm.go:Conn.handleErrors"]}
{"id": "C87", "title": "Connections sharing a configuration", "statement": "Any number of connections can be opened with one *Config, as a Listener does. Each of them behaves as a single connection does, apart from the heartbeat data. With heartbeats disabled they are independent: a connection's state follows from its own steps, no step of another connection changes it, and connections can do side by side, in any order, whatever each can do by itself. It is NOT the case with heartbeats enabled: at any moment only acks carrying one and the same data are accepted, on any of the connections, and the correct BEAT ACK of a connection is refused when another connection has sent a BEAT since.", "quantifier": "every configuration, every number of connections, every interleaving of their steps", "why_tests_cant": "Any number of connections, and every interleaving of them.", "anchors": ["server.go:Listener.Accept", "server.go:Listen", "client.go:Dial", "asptm.go:Conn.heartbeat", "asptm.go:Conn.handleHeartbeatAck"]}
{"id": "C88", "title": "One peer can end every connection of the process", "statement": "It is NOT the case that what the peer of one connection sends leaves the other connections of the process alone: in every state of a process in which one connection is Active and waits for a packet, one well-formed packet of its peer (a BEAT ACK without Heartbeat Data, a DATA without Protocol Data) can, by steps of that connection only and without any failure, end the process, after which no connection makes a step.", "quantifier": "every reachable state of every process", "why_tests_cant": "The state of the other connections is arbitrary.", "anchors": ["fsm.go:Conn.monitor", "fsm.go:Conn.handleSignals", "asptm.go:Conn.handleHeartbeatAck", "transfer.go:Conn.handleData"]}
{"id": "C89", "title": "No busy loop", "statement": "The goroutines of a connection and the calls under way never spin: together they make at most 14 steps, plus 12 for every 1500 octets received, 3 for every call and 3 for every time the heartbeat's timer fires, whatever the peer sends, whatever fails and however they are scheduled. A connection to which nothing happens comes to rest.", "quantifier": "every configuration, every execution of any length", "why_tests_cant": "A bound on all executions; a loop between monitor, handlers and heartbeat may need any interleaving to show.", "anchors": ["fsm.go:Conn.monitor", "fsm.go:Conn.handleSignals", "asptm.go:Conn.heartbeat", "transfer.go:Conn.handleData"]}
{"id": "C90", "title": "Messages sent in return for packets", "statement": "What the library sends on its own account is bounded by what it has received: a server has written at most one message (acknowledgement, BEAT ACK, ERR) for every packet read; a client at most two, and one more. Both bounds are attained for every number of packets and every configuration, by a peer that repeats ASP Up. It is NOT the case that a client writes at most one message per packet.", "quantifier": "every configuration, peer, failure and interleaving; sessions of any length", "why_tests_cant": "Sums over arbitrarily long sessions; one packet can be answered by two goroutines.", "anchors": ["fsm.go:Conn.monitor", "fsm.go:Conn.handleStateUpdateAsClient", "fsm.go:Conn.handleSignals", "errors.go:Conn.handleErrors"]}
{"id": "C91", "title": "Texts of states and errors", "statement": "State.String gives the five states different names and every other value the name Unknown. Two errors of the package (InvalidVersionError, UnsupportedClassError, UnsupportedMessageError, UnexpectedMessageError, InvalidSCTPStreamIDError and the Err values sent to the monitor) with the same text are of the same type and have the same version, stream, class or kind of message. It is NOT the case that the text identifies the message.", "quantifier": "every state value, every error value", "why_tests_cant": "All pairs of values.", "anchors": ["fsm.go:State.String", "errors.go:UnexpectedMessageError.Error", "errors.go:UnsupportedMessageError.Error", "errors.go:UnsupportedClassError.Error", "errors.go:InvalidVersionError.Error", "errors.go:InvalidSCTPStreamIDError.Error"]}
{"id": "C92", "title": "A received payload is the user's own memory", "statement": "The connection reads every packet into one and the same buffer, and what is decoded from a packet is a slice of memory. Nevertheless a payload returned by ReadPD never changes: whatever is received afterwards, in whatever order the goroutines decode the packets, and whatever the user writes into (or appends to) other payloads, it shows what its packet carried on the wire. No two payloads share memory, and no payload shares memory with the buffer of the connection, so the user may keep and modify it.", "quantifier": "every sequence of packets, every order of decoding, every write of the user", "why_tests_cant": "Aliasing shows only under particular interleavings of reading and decoding, and later.", "anchors": ["fsm.go:Conn.monitor", "conn.go:Conn.ReadPD", "transfer.go:Conn.handleData", "messages/params/protocol-data.go:ProtocolDataPayload.UnmarshalBinary", "messages/params/params.go:Param.UnmarshalBinary"]}
{"id": "C93", "title": "Data races on the heartbeat data", "statement": "Besides the Length fields of parameters (C95), the goroutines of a connection share one piece of memory without a lock or a channel, HeartbeatInfo.Data of the configuration. Only the heartbeat goroutines of the connections with that configuration write it, only the check of a BEAT ACK in Active reads it, and with heartbeats disabled a connection never writes it. It is NOT the case that a connection with heartbeats enabled and a conforming peer is free of data races: whenever the peer's ack of a BEAT is being checked before the heartbeat goroutine has noted the BEAT's data, the two access it at the same time, one of them writing.", "quantifier": "every configuration, every reachable state; the race in every state in which a BEAT has just been sent", "why_tests_cant": "Races need a particular interleaving; the race detector sees only those that happen.", "anchors": ["asptm.go:Conn.heartbeat", "asptm.go:Conn.handleHeartbeatAck"]}
{"id": "C94", "title": "An established connection serves the traffic of its peer", "statement": "Once Dial or Accept has returned a connection, and as long as its peer sends only BEAT, NTFY, ERR, DATA with decodable Protocol Data, and messages the library does not support (SSNM, RKM, unknown ones), in packets of at most 1500 octets, nobody calls Close or cancels the context, and no system call of the library's own goroutines fails: the connection stays in state Active and open, in every interleaving of packets, goroutines and user calls, and does not panic (unless Write is called on an association with a single outbound stream). It can always finish by itself what it has begun, and when it has, every packet was read in order, the library has sent in return exactly an ack for every BEAT and an Error 'unsupported message type' for every unsupported message, in the order in which they arrived and nothing else, and every payload has been delivered by a Read or is waiting to be read, once.", "quantifier": "every reachable established state, every finite sequence of events as described, every schedule", "why_tests_cant": "Arbitrary traffic, arbitrary interleavings, and a statement about everything that was sent and delivered.", "anchors": ["fsm.go:Conn.monitor", "fsm.go:Conn.handleSignals", "asptm.go:Conn.handleHeartbeat", "transfer.go:Conn.handleData", "errors.go:Conn.handleErrors", "management.go:Conn.handleNotify", "management.go:Conn.handleError", "conn.go:Conn.Read"]}
{"id": "C95", "title": "Sending at the same time with shared parameters", "statement": "The message constructors write the Length field of the parameters they are given, and the library gives them those of its Config. Still, goroutines that build and encode messages at the same time - several Writes, a Write and the library's own replies, several connections with one Config, WritePDs with one Protocol Data parameter - get, in every interleaving and whatever the Length fields were before, exactly the packets they would get one after the other, and none of them blocks or fails. It is NOT the case that they are free of data races: whenever two of them share a parameter there is an interleaving in which both are about to write its Length; two Writes of one Config race exactly if it has a Network Appearance, a Routing Context or a Correlation ID.", "quantifier": "any number of goroutines, every kind of message, every sharing of parameters, every interleaving of their accesses", "why_tests_cant": "Which accesses overlap is up to the scheduler; the result has to be right for all of them.", "anchors": ["messages/data.go:NewData", "messages/data.go:Data.SetLength", "messages/params/params.go:Param.SetLength", "conn.go:Conn.WriteToStream", "conn.go:Conn.WritePDToStream", "errors.go:Conn.handleErrors", "aspsm.go:Conn.initiateASPSM", "asptm.go:Conn.initiateASPTM"]}
{"id": "C96", "title": "Sending the same message at the same time", "statement": "It is NOT the case that a message value can be passed to several WriteSignals (or MarshalBinary) at the same time, e.g. to send it on several connections: MarshalTo keeps the encoded parameters in the message's Header, and another goroutine that starts encoding replaces them by zeros, so that a packet whose parameters are all zeros may be sent. Whatever the interleaving, no such call fails, the packet has the header and the length of the message, and every parameter in it is either complete or all zeros; a goroutine that is the only one to send its message sends it as it is.", "quantifier": "any number of goroutines and messages, every interleaving of their accesses", "why_tests_cant": "The failure needs another goroutine to start between two operations of one MarshalTo.", "anchors": ["messages/notify.go:Notify.MarshalTo", "messages/header.go:Header.MarshalTo", "conn.go:Conn.WriteSignal"]}
{"id": "C97", "title": "Dial, Listen and Accept as a whole", "statement": "Dial and Accept return a connection only if the network is known (Dial: m3ua, m3ua4, m3ua6), the configuration has HeartbeatInfo, and the SCTP association was made and its status read; the connection has the caller's configuration and the role of the call. A nil configuration or nil HeartbeatInfo panics before any SCTP call, an unknown network fails before any (Listen too), and Listen looks at no configuration (the panic is that of a later Accept). The SCTP calls are: the association on the SCTP network of the given name, its status, and Close with an error only; each error says what failed (network, SCTP call, status, channels closed, 10 s passed), and a panic comes from an unusable configuration or from a goroutine of the connection. Whatever the outcome, errors included, the caller's configuration is changed at most in HeartbeatInfo.Enabled, which is cleared if and only if Interval is 0. It is NOT the case that an error always means that the association is closed: the association stays open for ever exactly if it was made and GetStatus failed; after every other error it is closed.", "quantifier": "all networks, configurations, outcomes of the SCTP calls, and all executions of the connection while Dial or Accept waits", "why_tests_cant": "The SCTP calls do not fail on demand, and the errors of the waiting part depend on the schedule of goroutines and timers.", "anchors": ["client.go:Dial", "server.go:Listen", "server.go:Listener.Accept"]}
{"id": "C98", "title": "An endpoint is a function from octets to octets", "statement": "Give an endpoint (of either side, any configuration with heartbeats disabled, no user calls) any packets but DATA - valid messages in any order, messages of another version, undecodable octets, unsupported messages, BEAT ACKs, packets longer than the read buffer - at any times. The octets it sends, packet by packet, and what becomes of it (waiting in which state, Dial/Accept returned or not, blocked in a second transition to Active, deaf, or crashed by a BEAT ACK without data) depend only on the octets received and the configuration, not on the scheduling of its goroutines; the function is given explicitly. It makes at most 9 + 13 per piece read + 1 per arrival steps. After a packet that is undecodable, of another version or a BEAT ACK it never reads again, and what arrives later has no effect.", "quantifier": "all configurations with heartbeats disabled, all packets other than DATA, all interleavings of arrivals and goroutines", "why_tests_cant": "A test can compare the answers to a few packets under the schedule it happens to get; that all schedules give the same octets for all inputs is out of its reach.", "anchors": ["fsm.go:Conn.monitor", "fsm.go:Conn.handleStateUpdate", "fsm.go:Conn.handleSignals", "errors.go:Conn.handleErrors", "asptm.go:Conn.handleHeartbeatAck"]}
{"id": "C99", "title": "Received data that nobody reads", "statement": "The queue of received payloads holds at most 65535. It is NOT the case that a peer that sends faster than the user reads is slowed down, or that the goroutines and the memory of a connection are bounded: an established connection reads any number of DATA messages without a single Read, and every payload beyond the queue keeps a goroutine of its own, which waits for a Read to make room; none of them is lost. Calling Close in such a situation ends the process: nothing that happens later, short of cancelling the context, lets the goroutine end, and its only step, which it can make at any time, is a panic (send on a closed channel).", "quantifier": "all connections handed out by Dial/Accept, any number of DATA messages, all interleavings; for Close all continuations without cancellation", "why_tests_cant": "It takes more than 65535 unread messages, and what a test can observe of goroutines that wait is at most their number at one moment.", "anchors": ["transfer.go:Conn.handleData", "fsm.go:Conn.handleSignals", "fsm.go:Conn.monitor", "conn.go:Conn.Read", "conn.go:Conn.Close"]}
{"id": "C100", "title": "Time", "statement": "Two BEATs of a connection are at least HeartbeatInfo.Interval apart (0 for a negative one), so that a span of time of length w sees at most 1 + w/Interval of them, whatever the peer sends; the bound is exact, and with a negative Interval there is none: any number of BEATs within no time. ErrHeartbeatExpired is raised no earlier than HeartbeatInfo.Timer after the last BEAT; once the heartbeat goroutine has waited that long (or for the Interval) nothing keeps it from going on. Dial and Accept give up no earlier than 10 seconds after the association is up, can give up from then on whatever the connection is doing, and with a peer that says nothing end in no other way. As Accept makes one handshake at a time, n silent peers ahead in a loop of Accept calls delay the next one by at least 10n seconds.", "quantifier": "all configurations, modes and runs with a clock (any non-decreasing times, timers never early and arbitrarily late), any number n of peers", "why_tests_cant": "Statements about all timings of a concurrent program; a test would have to wait 10 seconds per peer and could only see the timings of its machine.", "anchors": ["asptm.go:Conn.heartbeat", "client.go:Dial", "server.go:Listener.Accept", "config.go:HeartbeatInfo"]}
{"id": "C101", "title": "The example server's buffer", "statement": "Whatever a peer sends, a Read hands over at most 1476 octets. serve of the example server (buffer of 1500 octets), with any peer, network and schedule, prints the payloads handed over, completely and in order, one line each; its Read returns octets or ErrNotEstablished and nothing else (the branch for io.EOF is never taken), and the program's own steps never panic. It is NOT the case that a smaller buffer would do: for every size below 1476 there is a peer whose DATA makes buf[:n] panic, because Read returns the length of the payload and not of what it copied. A peer that never speaks makes Accept fail and ends the whole process.", "quantifier": "all peers, configurations, executions and failures; all buffer sizes", "why_tests_cant": "The maximum is over everything a peer may send; a test sends a few payloads.", "anchors": ["examples/server/m3ua-server.go:serve", "conn.go:Conn.Read", "fsm.go:Conn.monitor"]}
{"id": "C102", "title": "The example client with the example server", "statement": "For all values of their flags with at most 1456 octets of -data, over an association with two or more outbound streams on which nothing is lost, and as long as no heartbeat Timer expires: in every schedule both programs keep going and neither endpoint is closed or panics; the client prints one line per completed Write, the server one line with exactly these octets per Read, never more than were written; after w Writes and i Intervals at most 152 + 29w + 31i steps happen, and when none is left (which always comes about) both have printed w lines and the client can go on. It is NOT the case for longer data: once such a packet has arrived the server reads at most two more pieces of 1500 octets for ever, while the client goes on printing lines; nor for one outbound stream, where the first Write panics.", "quantifier": "all flags, user data, schedules, packet orders; any number of Writes and heartbeat Intervals", "why_tests_cant": "A test runs the two programs for a while under one schedule.", "anchors": ["examples/client/m3ua-client.go:main", "examples/server/m3ua-server.go:main", "examples/server/m3ua-server.go:serve", "conn.go:Conn.Write", "conn.go:Conn.Read"]}
{"id": "C103", "title": "The example pc-conv", "statement": "pc-conv -raw n with n > 0 and one of the nine variants with a width prints one line with n modulo that width and its canonical text, also for n beyond 32 bits; -str with that text prints the same line; -str with components in range prints the number they make up and the text as given. It ends with an error exactly for no flags or a text without a dash, and with a nil dereference exactly for -raw with an empty variant or a text that is not one of the variant. It is NOT the case that other variants are refused: a number then becomes 0 and is reported as successfully converted; nor that -raw 0 is converted: it prints nothing and no error.", "quantifier": "all flag values", "why_tests_cant": "The inputs are all integers and strings; the failures depend on text and variant together.", "anchors": ["examples/pc-conv/main.go:main", "pc/pc.go:NewPointCode", "pc/pc.go:NewPointCodeFrom", "pc/pc.go:Variant.BitLength"]}
{"id": "C104", "title": "Encoding a decoded packet", "statement": "Every packet that Parse accepts is encoded without error to its normal form: the same header, the last parameter of each kind in the order of the RFC (all parameters, for a Generic message), zero padding. The normal form decodes to the same message (every field and parameter, and the header but for the raw body), encodes to itself, and is at most 3 octets longer than the packet; two packets are encoded to the same octets exactly if they carry the same message. A decoded message holds no more octets of parameters than the packet has. It is NOT the case that the Length field of the result is correct: it is the one received, even if parameters were dropped.", "quantifier": "all octet strings that Parse accepts", "why_tests_cant": "The packets are arbitrary sequences with repetitions, any order, any padding and a cut end; the claim relates decoder and encoder on all of them.", "anchors": ["messages/messages.go:Parse", "messages/*.go:MarshalTo", "messages/header.go:Header", "messages/params/params.go:ParseMultiParams"]}
{"id": "C105", "title": "Reading a received message", "statement": "For every accepted packet of the 19 defined messages each accessor of each field says what the last parameter of that kind in the packet says: numbers if it has exactly four octets and 0 otherwise, halves and low octets of that number, texts as they are, lists of whole words, protocol data from twelve octets on. An accessor panics exactly if there is no such parameter in the packet (nil field), and RoutingContext()/AffectedPointCode() also if its value is not one or more whole words. It is NOT the case that a message that Parse accepts has the parameters that RFC 4666 makes mandatory: a header alone is accepted as every one of the messages, with all fields nil.", "quantifier": "all packets of the 19 messages, all fields, all accessors", "why_tests_cant": "The result depends on which parameters a peer chose to send, how often and how long; tests use well-formed messages only.", "anchors": ["messages/*.go:UnmarshalBinary", "messages/params/*.go:accessors"]}
{"id": "C106", "title": "The end of a connection and the data received before it", "statement": "When an established connection is waiting for a packet and its peer ends the association, or its user calls Close, the connection is closed without a panic. From then on, as long as nothing panics, exactly one queued payload is delivered, in order, to each Read or ReadPD that was waiting for data at that moment; the others of these calls return ErrNotEstablished; every one of them can return at once; calls made later get no data. It is NOT the case that data received before the end can be read: payloads queued beyond the waiting calls are never delivered, even if the peer's Write returned without error before it closed and the packet was received; and a payload on its way to the queue panics the process.", "quantifier": "all reachable established connections, all interleavings of goroutines, packets and calls after the end", "why_tests_cant": "It depends on how many calls happen to be waiting and how much is queued when the end comes, over all schedules.", "anchors": ["fsm.go:Conn.monitor", "conn.go:Conn.Read", "conn.go:Conn.ReadPD", "conn.go:Conn.Close", "transfer.go:Conn.handleData"]}
{"id": "C107", "title": "The example server as a whole", "statement": "The example server with any number of associations: each association with its goroutine behaves as serve does alone, so its lines are those of the payloads its peer sent, and no serve panics; at most one association at a time is not yet established. Without heartbeats a step on one association changes no other. It is NOT the case that the server survives a peer whose handshake fails: while a peer that has connected sends nothing no other association is accepted, and when its Accept fails (ten seconds of silence, or an end of the association after ASP Up) the process ends, and what the established associations have received and not yet read is never printed.", "quantifier": "all numbers of associations, all packets, all interleavings of main, the serve goroutines, the library's goroutines and the network", "why_tests_cant": "It depends on several peers at once and on the interleaving of their goroutines with main.", "anchors": ["examples/server/m3ua-server.go:main", "examples/server/m3ua-server.go:serve", "server.go:Listener.Accept"]}
{"id": "C108", "title": "Nil parameters given to the codec", "statement": "New, the encoding of a Generic message and MarshalMultiParams panic exactly when an element of the parameter list is nil, and otherwise do what they do with the parameters themselves. Generic.String never panics on nil elements. A typed message can be encoded whichever of its parameters are nil. The constructors of nested parameters leave nil elements out. A Generic message without a header panics in MarshalBinary, SetLength and String, whatever its parameters.", "quantifier": "all lists of parameters with nils at any places, all headers, classes and types", "why_tests_cant": "The places of the nils in the list are arbitrary, and the functions differ in whether they ask for nil.", "anchors": ["messages/generic.go:New", "messages/generic.go:Generic.MarshalTo", "messages/generic.go:Generic.String", "messages/params/params.go:MarshalMultiParams", "messages/params/params.go:newNestedParam"]}
{"id": "C109", "title": "Which error a refused packet gives", "statement": "Parse gives messages.ErrTooShortToParse exactly for packets shorter than 8 octets; params.ErrTooShortToParse exactly if after some complete padded parameters one to three octets are left; params.ErrInvalidLength exactly if after some complete padded parameters the next length is smaller than 4 or larger than the rest of the packet; messages.ErrInvalidParameter exactly if the body is a well-formed sequence of parameters with one that does not belong to the message; and no other error. A malformed parameter therefore takes precedence over a foreign one, wherever they are. The fuzz entry points never panic and return 1 exactly on the packets (sequences of at least one parameter) of the grammar.", "quantifier": "all octet strings", "why_tests_cant": "Which error wins depends on where in an arbitrary sequence of parameters the first defect is.", "anchors": ["messages/messages.go:Parse", "messages/header.go:Header.UnmarshalBinary", "messages/params/params.go:ParseMultiParams", "messages/params/params.go:Parse", "messages/fuzz.go:Fuzz", "messages/params/fuzz.go:Fuzz"]}
{"id": "C110", "title": "How many octets the library sends on its own account", "statement": "A BEAT has 140 octets. A BEAT ACK is no longer than the BEAT it answers, padded to a multiple of four. Every other message that the library sends by itself is no longer than a size given by the configuration alone, and at most 60 octets if the configured parameters are short. In total a server answers at most with the (padded) octets received and that size for every packet, a client with that size twice for every packet and once more. It is NOT the case that an answer is no longer than the packet: an unexpected message of 8 octets is answered with an ERR that holds the configured parameters.", "quantifier": "all configurations, all packets, all interleavings", "why_tests_cant": "The bound is over all packets a peer may choose, including BEATs of any size, and all states.", "anchors": ["aspsm.go", "asptm.go", "errors.go:Conn.handleErrors", "errors.go:UnsupportedMessageError.first40Octets", "conn.go:Conn.WriteSignal"]}
{"id": "C111", "title": "Dial on both sides, Accept on both sides", "statement": "If both sides of an association call Dial (heartbeats disabled), both calls return in every interleaving, after a bounded number of steps, and both endpoints are then Active and wait for packets; neither panics, closes the connection or blocks on the way, and each sends exactly ASP Up, ASP Up Ack, ASP Active, ERR, ASP Active, ASP Active Ack, ERR, ERR, in this order. A client and a server send ASP Up, ASP Active and ASP Up Ack, ASP Active Ack. If both sides call Accept, nothing is ever sent, both stay Down and neither call returns before its context ends.", "quantifier": "all configurations whose messages fit the receive buffer (for Accept: all configurations), all interleavings of the goroutines of both sides and of the transport", "why_tests_cant": "Both directions overlap; the result is over all interleavings of two endpoints.", "anchors": ["client.go:Dial", "server.go:Listener.Accept", "fsm.go:Conn.handleStateUpdate", "fsm.go:Conn.handleSignals", "aspsm.go", "asptm.go", "errors.go:Conn.handleErrors"]}
{"id": "C112", "title": "What one more signal does to two clients connected to each other", "statement": "Two clients whose exchange has ended; then the user of one of them calls WriteSignal once. After an ASP Active, ASP Active Ack, ERR, NTFY or unsupported message both end up Active. After an ASP Down or ASP Inactive both are blocked for ever. After an ASP Down Ack the receiver is blocked for ever and the sender is left Inactive. After an ASP Up, ASP Up Ack or ASP Inactive Ack the exchange of messages never ends.", "quantifier": "all configurations whose messages fit the receive buffer, all messages of these types, all interleavings", "why_tests_cant": "Never-ending exchanges and permanent blocking are statements on all infinite behaviours of two endpoints.", "anchors": ["conn.go:Conn.WriteSignal", "fsm.go:Conn.handleStateUpdateAsClient", "fsm.go:Conn.handleSignals", "client.go:Dial"]}
{"id": "C113", "title": "What the example client prints", "statement": "The example client, with any peer and any network: its lines 'Sent' are exactly the DATA messages written to the association, one line for each, except while a Write has returned and its line is not yet printed. A Write returns no error, or ErrNotEstablished, or the error of encoding or of the association. Every Write before the last has written one message: the first error is the last line, and the process ends with it (without Close). If Dial fails nothing has been written.", "quantifier": "all payloads, all configurations, all peers, all interleavings of the library, the network and the program", "why_tests_cant": "The program runs for ever against a peer that may send anything at any time.", "anchors": ["examples/client/m3ua-client.go:main", "conn.go:Conn.Write", "conn.go:Conn.WriteToStream", "client.go:Dial"]}
{"id": "C114", "title": "The octets that the example programs send", "statement": "For all values of their flags, and whatever the peer sends: every packet of the example client and of an association of the example server is one of a fixed list of packets, given octet by octet: ASP Up with ASP Identifier 1, ASP Active with loadshare and Routing Contexts 1 and 2, DATA from 0x11111111 to 0x22222222 with the payload of the flag on a stream from 1 to the largest one, the four acknowledgements, ERR 1, 4 (with at most 40 octets of the message) and 6 (with the sender's point code), BEAT and BEAT ACK; all but DATA on stream 0. The server sends no DATA. The two configurations mirror each other: the point codes are exchanged, the other parameters are the same. Heartbeats are enabled exactly when -hb-interval is not zero, with the interval and the timer of the flags.", "quantifier": "all values of -hb-interval, -hb-timer and -data (up to 65519 octets), all packets of the peer, all interleavings", "why_tests_cant": "The list is complete: it is about every packet of every execution.", "anchors": ["examples/client/m3ua-client.go:main", "examples/server/m3ua-server.go:main", "config.go", "aspsm.go", "asptm.go", "errors.go:Conn.handleErrors", "messages"]}
{"id": "C115", "title": "The order of received data", "statement": "Whenever DATA messages are waiting at an established connection (up to 65535, the capacity of the queue), they can be handed to the user in any order whatsoever: for every permutation there is an execution without any failure in which Read returns them in that order. If, on the other hand, no packet is read from the association before the goroutines of the earlier DATA messages have ended, then what the user gets is in the order of arrival, and complete unless a message was refused or the context cancelled.", "quantifier": "all states that wait for packets, all lists of DATA messages and all their permutations; all executions in which packets are read that late", "why_tests_cant": "All permutations of all lists; the positive part is over all interleavings.", "anchors": ["fsm.go:Conn.handleSignals", "transfer.go:Conn.handleData", "conn.go:Conn.Read", "conn.go:Conn.ReadPD"]}
{"id": "C116", "title": "The order of user data between two endpoints", "statement": "Two endpoints of the library; the user of the first calls Write or WriteToStream only when the earlier such call has returned, and no packet exceeds 1500 octets. Then the DATA messages go out in the order of the calls. If moreover the network loses packets at most but keeps their order, and the second endpoint reads no packet before the goroutines of the earlier DATA messages have ended, its user gets the payloads in the order of the calls; all of them if nothing is lost or refused. It is NOT the case that a network that keeps the order is enough: with the same packets in the same order the second user may get the second payload first.", "quantifier": "all configurations, executions of both endpoints of any length, losses", "why_tests_cant": "Depends on the scheduling of goroutines on both sides over sessions of any length.", "anchors": ["conn.go:Conn.Write", "conn.go:Conn.WriteToStream", "conn.go:Conn.ReadPD", "transfer.go:Conn.handleData", "fsm.go:Conn.monitor"]}
{"id": "C117", "title": "A racing comparison of heartbeat data does no further harm", "statement": "handleHeartbeatAck checks the state, then compares the received octets with the stored ones, without a lock; meanwhile the state and the data may change and the comparison may see a mixture of octets. However such comparisons come out: everything that can be seen of a connection (its log of packets, state updates, reported errors and deliveries, the results of all calls, state, queues) is the same as in some execution in which check and comparison are one atomic step; what holds of all executions of one kind holds of all of the other. No kind of panic is added, and nothing is taken away.", "quantifier": "all executions, all moments at which other goroutines run between check and comparison, all outcomes of the comparison", "why_tests_cant": "A torn read depends on the scheduler and the hardware; the statement is about all interleavings.", "anchors": ["asptm.go:Conn.handleHeartbeatAck", "asptm.go:Conn.heartbeat", "fsm.go:Conn.handleSignals", "conn.go:Conn.Close"]}
{"id": "C118", "title": "Which calls return", "statement": "Every call of a connection can be over after at most 3 steps of its own goroutine and of the monitor (WriteSignal 1; Read, ReadPD, WriteToStream, WritePDToStream, Close, State 2; Write, WritePD 3), however the system calls in them end: it has returned, or it is a Read or ReadPD that waits for data. However everything is scheduled, once nothing is left to do every call has returned, except a Read or ReadPD with nothing received and no Close, and calls other than WriteSignal after a second activation (C41), which never return. A waiting Read returns a payload, or ErrNotEstablished once the connection is closed; it is NOT the case that it ends when the connection is no longer Active.", "quantifier": "all reachable states, all calls, all outcomes of system calls, all schedules", "why_tests_cant": "Blocking for ever is a statement about all continuations.", "anchors": ["conn.go:Conn.Read", "conn.go:Conn.ReadPD", "conn.go:Conn.Write", "conn.go:Conn.WriteSignal", "conn.go:Conn.Close", "conn.go:Conn.State", "fsm.go:Conn.handleStateUpdate"]}
{"id": "C119", "title": "Two prompt endpoints never give each other up", "statement": "Let a client and a server of the library be started together, with or without heartbeats, and let whatever is possible go on within d (the next step of a goroutine or the next arrival of a packet comes within d of the last one as long as there is one), no system call fail, and at most c calls of the users be to be served between two times of rest. If 10 s and, where heartbeats are enabled, Timer and Interval are longer than (136 + 13 c) d, then, however long they run and whenever timers fire that have elapsed, neither Dial nor Accept times out, no heartbeat expires, neither endpoint panics or closes, Dial and Accept have returned after (136 + 13 c) d, and every BEAT is answered within that time. It is NOT the case that promptness alone suffices: with a Timer of 3 d a BEAT of a connected client expires although nothing is lost.", "quantifier": "all configurations whose messages fit, all schedules and times within the bound, any number of heartbeat rounds and calls", "why_tests_cant": "It is about real-time bounds over unbounded executions of two processes; a test sees one schedule.", "anchors": ["asptm.go:Conn.heartbeat", "client.go:Dial", "server.go:Listener.Accept", "fsm.go:Conn.monitor", "conn.go:Conn.Read", "conn.go:Conn.Write"]}
{"id": "C120", "title": "What Read and ReadPD return", "statement": "In every execution, the payloads that the calls of Read and ReadPD have returned are exactly the payloads taken from the received DATA messages, each returned by one call only, in whatever way the calls overlap; if each such call is made when the earlier ones have returned, they are in the order in which they were delivered. Hence, between two endpoints: what the calls on one side return is among what the calls on the other side wrote, none of it twice; and in the same order if each side makes one call after the other, the network keeps the order and the receiver reads no packet before it is done with the earlier ones. It is NOT the case that with overlapping calls the results are in the order of the calls.", "quantifier": "all executions of one endpoint; all pairs of executions of two endpoints joined by a network that does not invent or duplicate packets", "why_tests_cant": "Duplicated or mixed-up results of concurrent calls appear only under particular interleavings.", "anchors": ["conn.go:Conn.Read", "conn.go:Conn.ReadPD", "conn.go:Conn.Write", "transfer.go:Conn.handleData"]}
{"id": "C121", "title": "Exchanges between two endpoints end with what was written", "statement": "A client and a server of the library connected to each other, with or without heartbeats, over a network that loses nothing and delivers in any order: however their steps interleave, after at most 136 + 13 (number of calls) + 31 (number of heartbeat ticks) steps nothing is left to do. Then, if a user called Read and ReadPD no more often than the other one wrote, all its calls have returned; if no less often, it has been given exactly what the other one wrote. In particular the round trip of the package's own test (client writes, server reads; server writes, client reads) always ends with each Read holding the octets written by the other side, followed by the rest of its buffer.", "quantifier": "all configurations whose messages fit the receive buffer, all payloads and buffers, all interleavings, any number of calls and heartbeat ticks", "why_tests_cant": "The package's test runs one schedule of one exchange; the statement covers every schedule and ends by itself.", "anchors": ["conn_test.go", "client.go:Dial", "server.go:Listener.Accept", "conn.go:Conn.Read", "conn.go:Conn.Write", "transfer.go:Conn.handleData"]}
{"id": "C122", "title": "The streams of all packets", "statement": "In every execution: a Write, WritePD, WriteToStream, WritePDToStream or WriteSignal that has returned without error has sent exactly one packet, its message, and returned twice its size; every other call has sent none. WriteSignal sends on stream 0, Write and WritePD on a stream from 1 to MaxMessageStreamID(), the other two on the stream given. Everything the library sends on its own account is on stream 0 and is not DATA; its ERRs have the codes 1, 4 or 6, so an invalid stream identifier is never reported. A packet on another stream than 0 is the DATA message of exactly one call. If data is sent with Write and WritePD only, DATA is exactly what is on streams other than 0. It is NOT the case that DATA is always on the streams 1 to MaxMessageStreamID(): WriteToStream takes any number, and WriteSignal sends DATA on stream 0; nor that the library itself never sends a packet with the class of DATA: a packet of class 1 and type 0x23 is answered with its own class.", "quantifier": "all executions, all calls, all configurations, all peers", "why_tests_cant": "It speaks of every packet of every execution, including those of concurrent calls and of the library's goroutines.", "anchors": ["conn.go:Conn.WriteSignal", "conn.go:Conn.WriteToStream", "conn.go:Conn.WritePDToStream", "conn.go:Conn.chooseStreamID", "conn.go:Conn.StreamID", "aspsm.go", "errors.go:Conn.handleErrors"]}
{"id": "C123", "title": "Finding out which error was returned", "statement": "When Parse returns an error, errors.Is finds in it exactly the error variable named in C109 and no other. Comparing with == finds it, too, except exactly for a foreign parameter in DUNA, DAVA, DAUD, DRST or DUPU (or what is taken for one of these, C18), where == finds nothing. When SCTPWrite fails, Write, WritePD, WriteToStream and WritePDToStream return its error itself, WriteSignal one in which errors.Is but not == finds it; WriteSignal never fails to encode a message. Of Dial, Accept and Listen: the error of the association and the outcomes ErrFailedToEstablish and ErrTimeout are returned as they are, the errors of GetStatus and ListenSCTP are found by errors.Is only, and for an unknown network errors.Is finds no error variable. It is NOT the case that all messages report a foreign parameter with the same error value.", "quantifier": "all packets, all messages, all failures", "why_tests_cant": "The exceptions depend on the message type and the parameters; a test compares one packet.", "anchors": ["messages/duna.go", "messages/dava.go", "messages/daud.go", "messages/drst.go", "messages/dupu.go", "messages/message.go:Parse", "conn.go:Conn.WriteSignal", "client.go:Dial", "server.go:Listen", "server.go:Listener.Accept"]}
{"id": "C124", "title": "The memory of parameters", "statement": "A parameter made by NewParam, NewHeartbeatData or NewDiagnosticInformation keeps the slice it is given: whatever the program does afterwards, MarshalBinary encodes what the slice holds at that time. A parameter made by NewProtocolData or NewServiceIndicators is encoded with what the slice held when it was made, whatever the program writes, as long as it takes no slice of the parameter's value (Data, ProtocolData().Data, ServiceIndicators()). The octets returned by MarshalBinary change only when the program writes to them or hands them on. Slicing and writing touch exactly the octets asked for. A slice taken out of a parameter (Data, or from octet 12 on ProtocolData().Data, which NewProtocolData parameters always have) is encoded with what the program writes to it at any later time. Constructors and MarshalBinary change no octets the program had before, and writing to newer slices leaves older slices and the encodings of older parameters as they are. It is NOT the case that a parameter that is left alone is always encoded alike, nor that the payload taken out of a NewProtocolData parameter is a copy.", "quantifier": "all programs (sequences of making, slicing, writing, constructing, reading and encoding), all octets", "why_tests_cant": "Depends on which slices share memory and on writes at any later time; the package's tests never change a slice after passing it.", "anchors": ["messages/params/params.go:NewParam", "messages/params/params.go:newVariableLenValParam", "messages/params/params.go:newMultiUint8ValParam", "messages/params/heartbeat-data.go:NewHeartbeatData", "messages/params/diagnostic-information.go:NewDiagnosticInformation", "messages/params/protocol-data.go:NewProtocolData", "messages/params/params.go:Param.MarshalBinary"]}
{"id": "C125", "title": "Two messages in one packet", "statement": "Parse never accepts two messages in one packet when the first is of a type the package knows and ends at a multiple of four octets (as every encoded message does) and the second has version 1 and reserved 0: it returns an error, so the first message is lost with the second. The error is the one the second message gives when it is read as parameters, its class and type being read as a length: params.ErrInvalidLength if that is below 4 or exceeds the second message. A connection that reads such a packet reads nothing after it. It is NOT the case that this also holds for a first message of an unknown type (the second may become one of its parameters) or for one whose last parameter lacks its padding (the parameters inside the second message may then be taken for the first's).", "quantifier": "all first packets accepted as a typed message, all second messages and beginnings of messages; all reachable connections", "why_tests_cant": "The tests parse one message at a time; the outcome depends on both messages and on how the header of the second reads as a parameter.", "anchors": ["messages/messages.go:Parse", "messages/params/params.go:ParseMultiParams", "messages/params/params.go:Param.UnmarshalBinary", "fsm.go:Conn.monitor"]}
{"id": "C126", "title": "One changed octet", "statement": "Let one octet of a packet that Parse accepts be changed. If it lies in the value of a parameter, Parse accepts the packet as a message of the same type in which only this octet of this parameter differs (and in a typed message nothing, if a later parameter has the same tag). If it is padding, the message is the same. If it is the version, the reserved octet or the header's length, only this differs. If it lies in a tag of a typed message, the packet is refused with messages.ErrInvalidParameter unless the new tag belongs to the message. Every other octet is the class, the type or the length of a parameter. It is NOT the case that a change of the type, of a tag or of a length is always noticed: another message may result.", "quantifier": "all accepted packets, all positions, all octets", "why_tests_cant": "Covers every octet of every packet; the tests parse a few fixed packets.", "anchors": ["messages/messages.go:Parse", "messages/params/params.go:ParseMultiParams", "messages/params/params.go:Param.UnmarshalBinary", "messages/header.go:Header.UnmarshalBinary"]}
{"id": "C127", "title": "Packets between which an endpoint makes no difference", "statement": "For an endpoint with heartbeats disabled that receives any packets but DATA and whose user makes no calls: replacing received packets by packets with the same effect changes neither the octets it sends nor their order nor what becomes of it. Two packets have the same effect if Parse decodes them to the same message including the header (other padding, the parameters of a known message in another order), if Parse refuses both, or if both are valid messages of the same type among ASP Up, ASP Down, ASP Active, ASP Inactive, their acknowledgements, Error and Notify, whatever parameters they have: the peer's ASP identifier, routing contexts, traffic mode, error code and status are never looked at. For DATA, in any two executions that have handled all they have read and refused no DATA: if the DATA messages read have the same Protocol Data, the users are given the same payloads (in the same order, if no packet was read before the earlier ones were handled), whatever network appearance, routing context and correlation they carry and whatever the endpoints are configured with. For each of the other types (BEAT, BEAT ACK, DUNA, DAVA, DAUD, DRST, SCON, DUPU) there are two valid messages with the same header that get different answers from an endpoint. It is NOT the case for the length in the header: a BEAT is sent back with it.", "quantifier": "all configurations with heartbeats disabled, all sequences of packets that are not DATA, all interleavings of the goroutines", "why_tests_cant": "It compares two executions over arbitrary packets; a test sends one fixed packet.", "anchors": ["fsm.go:Conn.handleSignals", "fsm.go:Conn.monitor", "aspsm.go", "asptm.go:Conn.handleHeartbeat", "management.go", "transfer.go:Conn.handleData", "messages/messages.go:Parse"]}
{"id": "C128", "title": "Encoded messages one after another", "statement": "Take messages made with the package's New functions, with parameters where they belong and short enough for the wire. No encoded message is the beginning of another one, and two of them have the same octets only if they are of the same type and have the same parameters with the same values. Messages written one after another are told by the octets alone: cutting at the lengths in the headers gives each message's own octets, there is no other way to cut so, and Parse of each piece gives a message of the same type with the same parameters. It is NOT the case that this also holds with parameters given in the wrong place (NewAspUp with an INFO String as its identifier), nor for messages that were decoded, because they keep the length they were received with.", "quantifier": "all 19 New functions, all parameters, all sequences of messages", "why_tests_cant": "It compares every message with every other one and every way to cut; a test compares a few encodings with expected octets.", "anchors": ["messages/messages.go:Parse", "messages/header.go:Header.UnmarshalBinary", "messages/asp-up.go:NewAspUp", "messages/data.go:NewData"]}
{"id": "C129", "title": "Deadlines", "statement": "SetDeadline, SetReadDeadline and SetWriteDeadline are handed on to the association; suppose that it accepts them and that SCTPRead (SCTPWrite) fails from the deadline on. The deadline set last counts. As long as none has passed nothing differs; afterwards whatever neither reads nor sends a packet goes on as before. It is NOT the case that a passed read deadline makes Read return with an error and leaves the connection usable: a Read or ReadPD that waits goes on waiting; instead, as soon as an established connection waits for a packet, it is closed, whether or not anybody reads and whatever has arrived, and stays closed whatever deadlines are set afterwards; the waiting calls then get what is queued or ErrNotEstablished, no call gets a timeout error. While a write deadline has passed, nothing at all is sent, not even the library's own replies; Write, WritePD, WriteToStream and WritePDToStream return the error of SCTPWrite and leave the connection as it is. It is NOT the case that a write deadline concerns only the user's writes: an answer to a packet or a heartbeat that cannot be sent closes an established connection as soon as the monitor listens to its goroutines, which it does between handling a packet and reading the next.", "quantifier": "all executions with deadlines set at any times, all schedules", "why_tests_cant": "It depends on when the deadline passes relative to the library's own goroutine and to the peer; no test of the package sets a deadline.", "anchors": ["conn.go:Conn.SetDeadline", "conn.go:Conn.SetReadDeadline", "conn.go:Conn.SetWriteDeadline", "conn.go:Conn.Read", "fsm.go:Conn.monitor"]}
