{"id": "C01", "title": "UUID text round trip", "statement": "For every 16-bit or 128-bit UUID, parsing its printed form gives back the same UUID; printing any UUID that Parse accepts and parsing again changes nothing; Parse ignores '-' characters and hex digit case, and it accepts a string exactly when, with the dashes removed, it is an even-length hex string of 2 or 16 bytes. UUID16(n) is the little-endian form of n.", "quantifier": "all byte strings used as UUIDs, all strings given to Parse", "why_tests_cant": "The set of strings and of 128-bit values is far too large to enumerate; a unit test checks a few literals.", "anchors": ["uuid.go: UUID16, Parse, MustParse, lenErr, UUID.String, Reverse"]}
{"id": "C02", "title": "UUID equality and filter membership", "statement": "Equal holds exactly for the same byte sequences; Contains(list, u) is true exactly when some element of the list equals u (so never for an empty or nil list); Reverse is an involution that preserves length and the multiset of bytes.", "quantifier": "all UUIDs and all lists of UUIDs", "why_tests_cant": "Quantifies over all lists and all values.", "anchors": ["uuid.go: UUID.Equal, Contains, Reverse", "sliceops/swap.go: SwapBuf"]}
{"id": "C03", "title": "Advertising packet builder never overflows and is atomic on failure", "statement": "Starting from any packet of at most 31 bytes, appending any field leaves the packet at most 31 bytes; when a field other than service data (C64) is reported not to fit, the bytes of the packet are unchanged; when it succeeds the packet is the old bytes followed by the well-formed length/type/value record of that field.", "quantifier": "all packets, all field kinds and values, all sequences of appends", "why_tests_cant": "The boundary depends on every combination of accumulated length and field length.", "anchors": ["linux/adv/packet.go: append, Append, Flags, ShortName, CompleteName, ManufacturerData, AllUUID, SomeUUID, ServiceData16, IBeaconData, IBeacon, Raw"]}
{"id": "C04", "title": "Advertising data decoder never crashes on radio input", "statement": "Decoding any advertising/scan-response byte string either returns a field map or an error; it never panics, whatever a remote device transmits.", "quantifier": "all byte strings of any length", "why_tests_cant": "Input is attacker controlled and unbounded in structure; fuzzing only samples it.", "anchors": ["parser/parser.go: Parse, getArray, writeOrAppendBytes", "linux/adv/packet.go: NewRawPacket"]}
{"id": "C05", "title": "Advertising data build/parse round trip", "statement": "If a packet is the concatenation of well-formed records, decoding it succeeds and yields exactly, per field type, the values of those records in order (UUID lists split into their elements, byte fields kept verbatim); fields built with the packet builder are read back by the decoder (for the accessor of 32-bit service data see C65).", "quantifier": "all sequences of well-formed records", "why_tests_cant": "Needs induction over the record sequence.", "anchors": ["parser/parser.go: Parse", "linux/adv/packet.go: NewPacket, fields, NewRawPacket"]}
{"id": "C06", "title": "Advertising decoder: malformed tail does not disturb earlier fields", "statement": "When the data consists of well-formed records followed by a malformed remainder (zero length, or a length that runs past the end), the decoder reports an error and the returned fields are exactly those of the well-formed prefix; a single trailing byte is ignored.", "quantifier": "all record sequences and all malformed tails", "why_tests_cant": "All ways of truncating or corrupting a packet.", "anchors": ["parser/parser.go: Parse"]}
{"id": "C07", "title": "LE advertising report decoding", "statement": "For every byte string delivered as an LE advertising report, field access either returns exactly the bytes at the offsets fixed by the Bluetooth event layout or an error, and never reads outside the event; a report encoded by the layout is decoded to the same fields; an advertisement is reported connectable exactly for event types 0 and 1; the printed address is the six address octets most significant first.", "quantifier": "all byte strings, all report contents", "why_tests_cant": "Out-of-bounds behaviour depends on length bytes inside the input.", "anchors": ["linux/hci/evt/evt_werr.go", "linux/hci/adv.go", "linux/hci/adv_werr.go"]}
{"id": "C08", "title": "Scan responses are merged only with an advertisement of the same device", "statement": "A scan response handed to the advertisement handler is attached to a previously received advertisement with the same address; it is never attached to one with a different address, and it is attached to the most recent one still remembered.", "quantifier": "all sequences of advertising reports", "why_tests_cant": "History dependent; the ring buffer wraps.", "anchors": ["linux/hci/hci.go: handleLEAdvertisingReport", "linux/hci/adv.go: setScanResponse, ScanResponse"]}
{"id": "C09", "title": "HCI UART framing is independent of read chunking", "statement": "If the byte stream of the serial link is a concatenation of well-formed HCI event and ACL packets, then for every way the stream is cut into reads (without inter-byte timeout) exactly those packets are delivered, in order, with none lost, split, or merged; bytes before a packet indicator are skipped.", "quantifier": "all packet sequences and all chunkings of their bytes", "why_tests_cant": "Exponentially many chunkings.", "anchors": ["linux/hci/h4/frame.go: Assemble, waitStart, frame, reset"]}
{"id": "C10", "title": "GATT database handle assignment", "statement": "For every list of services, the attribute table assigns consecutive handles starting at the base handle, one attribute per service declaration, characteristic declaration, characteristic value and descriptor in declaration order; looking up a handle returns the attribute holding that handle and fails exactly for handles outside the table; a characteristic's value handle is its declaration handle + 1; a service's group end covers exactly its own attributes, the last service ending at 0xFFFF.", "quantifier": "all service/characteristic/descriptor trees that fit in the handle space", "why_tests_cant": "Unbounded tree shapes.", "anchors": ["linux/att/db.go: NewDB, genSvcAttr, genCharAttr, idx, at, subrange", "linux/gatt/server.go"]}
{"id": "C11", "title": "Adding services preserves the existing database layout", "statement": "The table a server publishes is the GAP and GATT services followed by the services it was given, whatever was published before; adding a service leaves every attribute of the services already published as it was (only the end of the formerly last group is corrected), provided none of their characteristics notifies or indicates (C70).", "quantifier": "all histories of service additions", "why_tests_cant": "The defect only shows after repeated rebuilds.", "anchors": ["linux/gatt/server.go: AddService, SetServices", "linux/att/db.go: NewDB, genCharAttr, newCCCD"]}
{"id": "C12", "title": "ATT server responses never exceed the negotiated MTU", "statement": "Every response or error PDU the server sends for any request other than Prepare Write is at most as long as the MTU the client announced (23 before that); the answer to Prepare Write is as long as the request. For a client announcing more than the server's own limit see C72.", "quantifier": "all databases, all requests, all MTUs >= 23, all handler behaviours", "why_tests_cant": "Depends on every combination of value sizes, handles and MTU.", "anchors": ["linux/att/server.go: handleRequest and handlers", "handler.go: ResponseWriter"]}
{"id": "C13", "title": "ATT server never crashes on a remote PDU", "statement": "Whatever bytes a connected client sends, the server handles them without a Go runtime panic.", "quantifier": "all PDUs, all databases, all connection states", "why_tests_cant": "Remote input is arbitrary.", "anchors": ["linux/att/server.go: handleRequest and all handlers"]}
{"id": "C14", "title": "ATT server: exactly one answer per request, with the right error data", "statement": "For every request PDU the server sends exactly one PDU: either the response opcode that belongs to the request or an error response carrying the request's opcode, the handle concerned and an error code; Write Command and confirmations are never answered (other commands: C73).", "quantifier": "all request opcodes and contents, all databases", "why_tests_cant": "All inputs.", "anchors": ["linux/att/server.go: handleRequest, handlers, newErrorResponse"]}
{"id": "C15", "title": "Find Information semantics", "statement": "For start <= end the response lists, in handle order, the handle/type pairs of the maximal run of attributes from the first one at or above start that are <= end, have the same UUID size and fit in the MTU; if there is none, Attribute Not Found; an invalid range is rejected with Invalid Handle.", "quantifier": "all databases, ranges and MTUs", "why_tests_cant": "All inputs.", "anchors": ["linux/att/server.go: handleFindInformationRequest"]}
{"id": "C16", "title": "Read By Type semantics", "statement": "For a valid range the response lists, in handle order, handle/value entries of attributes in the range whose type equals the requested type, all entries of equal length, as many as fit; if there is none, Attribute Not Found.", "quantifier": "all databases, ranges, types and MTUs", "why_tests_cant": "All inputs.", "anchors": ["linux/att/server.go: handleReadByTypeRequest"]}
{"id": "C17", "title": "Read By Group Type semantics", "statement": "A Read By Group Type request whose range starts at a published service is answered with (start, group end, UUID) of that service and the services directly following it, in handle order, of equal UUID length, as many as fit and lie in the range, but not beyond a service that has characteristics; a range without attributes gives Attribute Not Found, an invalid range Invalid Handle. Other ranges and group types: C74.", "quantifier": "all databases, ranges, types and MTUs", "why_tests_cant": "All inputs.", "anchors": ["linux/att/server.go: handleReadByGroupRequest"]}
{"id": "C18", "title": "Find By Type Value semantics", "statement": "When the attributes in the range that have the given type have static values, the response lists exactly, in handle order, the (handle, recorded group end) pairs of those with the given value, as many as fit; none gives Attribute Not Found. Handler-backed attributes and non-group attributes: C75.", "quantifier": "all databases, ranges, types, values and MTUs", "why_tests_cant": "All inputs.", "anchors": ["linux/att/server.go: handleFindByTypeValueRequest"]}
{"id": "C19", "title": "Read and Read Blob return the attribute value from the offset", "statement": "Reading a handle whose value is static and fits in MTU-1 bytes returns it. With a read handler, the handler is called exactly once, with the requested offset (0 for Read), and the answer is what it wrote, as far as it fits MTU-1 (a Write that does not fit is refused as a whole), or the error status it set. Nonexistent handles give Invalid Handle, unreadable ones Read Not Permitted. Static values: C76.", "quantifier": "all databases, handles, offsets, values and MTUs", "why_tests_cant": "All value lengths and offsets.", "anchors": ["linux/att/server.go: handleReadRequest, handleReadBlobRequest", "handler.go: ResponseWriter.Write"]}
{"id": "C20", "title": "Writes reach exactly the addressed attribute's handler", "statement": "A Write Request, or a Write Command with a non-empty value, to a writable attribute calls that attribute's write handler exactly once with exactly the written bytes, and no other handler; one to a missing or unwritable attribute calls none, and a request is then answered with an error. Empty commands: C77.", "quantifier": "all databases, handles, values", "why_tests_cant": "All inputs.", "anchors": ["linux/att/server.go: handleWriteRequest, handleWriteCommand, handleATT"]}
{"id": "C21", "title": "Queued (long) writes deliver the queued value", "statement": "After Prepare Write requests for one attribute with consecutive offsets from 0 (each echoed), Execute Write with flag 1 calls its write handler once with the concatenation, and with flag 0 delivers nothing; afterwards the queue is empty. Other offsets, several attributes: C78.", "quantifier": "all sequences of prepare and execute requests", "why_tests_cant": "History dependent.", "anchors": ["linux/att/server.go: handlePrepareWriteRequest, handleExecuteWriteRequest"]}
{"id": "C22", "title": "Client characteristic configuration is per connection and faithful", "statement": "Reading a client characteristic configuration descriptor returns the value last successfully written on that connection (0 initially). As long as the client only asks for what the characteristic supports (else C79), exactly one notifier runs per characteristic whose notify bit is set and none otherwise, likewise for indications, and all are closed at the end of the connection.", "quantifier": "all sequences of descriptor writes and reads over all characteristics", "why_tests_cant": "History dependent.", "anchors": ["linux/att/db.go: newCCCD", "linux/gatt/server.go", "handler.go: Notifier"]}
{"id": "C23", "title": "Server MTU exchange", "statement": "The server rejects client MTUs below 23 with an error and no change; otherwise it answers with its own receive MTU 515 and from the next PDU on uses the client's MTU for responses, notifications and indications; before any exchange the limit is 23. Capping by the own limit: C80.", "quantifier": "all client MTU values and all exchange histories", "why_tests_cant": "All values, history dependent.", "anchors": ["linux/att/server.go: handleExchangeMTURequest"]}
{"id": "C24", "title": "Notifications and indications carry the prefix of the data that fits", "statement": "A notification or indication PDU for a handle is opcode, handle, and the longest prefix of the data fitting the MTU; it never exceeds the MTU; at most one indication is outstanding before its confirmation or time-out. Lost confirmations: C81.", "quantifier": "all data, handles, MTUs, interleavings of confirmations", "why_tests_cant": "Schedule dependent.", "anchors": ["linux/att/server.go: notify, indicate, Loop"]}
{"id": "C25", "title": "ATT client never returns unvalidated response data", "statement": "Each client operation refuses bad arguments without sending; otherwise it puts exactly the encoding of its arguments on the wire (Prepare Write and Signed Write: C82), rejects unrelated PDUs with an error response, and returns success only for a response of the matching opcode and of valid length for that opcode (exceptions: C83); an ATT error response is returned as that error; anything else is an error.", "quantifier": "all arguments, all peer responses", "why_tests_cant": "Peer is arbitrary.", "anchors": ["linux/att/client.go: all operations"]}
{"id": "C26", "title": "ATT client never crashes on a peer PDU", "statement": "Whatever bytes the peer sends in response, the client operations do not panic.", "quantifier": "all responses", "why_tests_cant": "Peer is arbitrary.", "anchors": ["linux/att/client.go", "linux/gatt/client.go"]}
{"id": "C27", "title": "ATT client transactions are sequential and responses are matched to their own request", "statement": "At most one request is outstanding at any time; the response a call returns belongs to its request's opcode, and no response is returned twice. If the peer only answers open requests and no call timed out (else C84), the response was received after that call's request and before any later request.", "quantifier": "all schedules of concurrent callers, responses, timeouts", "why_tests_cant": "Schedule dependent.", "anchors": ["linux/att/client.go: sendReq, sendCmd, Loop"]}
{"id": "C28", "title": "Every indication is confirmed exactly once and notifications stay in order", "statement": "For each indication received the client sends exactly one confirmation, and none otherwise; notifications are handed to the subscriber in arrival order, each at most once, and are dropped only when the queue is full. Progress under unsolicited responses: C85.", "quantifier": "all PDU sequences and consumer schedules", "why_tests_cant": "Schedule dependent.", "anchors": ["linux/att/client.go: Loop, asyncReqLoop"]}
{"id": "C29", "title": "GATT discovery finds exactly the peer's services", "statement": "Against a conforming server, a first discovery terminates and returns every primary service exactly once with its correct handle range, each service's characteristics and each characteristic's descriptors with their handles, and DiscoverProfile the whole profile; with a filter the matching services in order, at most as many as the filter has entries (all of them when the peer's UUIDs are distinct). Repeated and filtered discovery, last handle, hostile peers: C86-C88.", "quantifier": "all peer databases, all response batchings", "why_tests_cant": "Needs induction over the peer's database and batch sizes.", "anchors": ["linux/gatt/client.go: DiscoverServices, DiscoverCharacteristics, DiscoverDescriptors"]}
{"id": "C30", "title": "Long read returns the whole value", "statement": "Against a conforming server whose MTU is the one the client uses, ReadLongCharacteristic terminates and returns exactly the attribute's value, for all value lengths and MTUs. Differing MTUs: C89.", "quantifier": "all value lengths and MTUs", "why_tests_cant": "Boundary at multiples of MTU-1; unbounded iteration.", "anchors": ["linux/gatt/client.go: ReadLongCharacteristic"]}
{"id": "C31", "title": "Client subscription state", "statement": "After any history of subscribe, unsubscribe and clear calls in which no call failed, the configuration last written to the peer has the notify (indicate) bit set exactly when a notification (indication) handler is registered for that characteristic; a first subscription registers its handler, unsubscribing removes it, others are left alone; an incoming notification calls exactly the handler registered for its value handle. Failures, resubscription, malformed PDUs: C90.", "quantifier": "all sequences of subscribe, unsubscribe, clear and incoming notifications; all write outcomes", "why_tests_cant": "History dependent.", "anchors": ["linux/gatt/client.go: Subscribe, Unsubscribe, setHandlers, ClearSubscriptions, HandleNotification"]}
{"id": "C32", "title": "L2CAP fragmentation and recombination are inverse", "statement": "Any PDU written on a connection whose controller has buffers of at least one byte is sent as fragments of at most the controller's buffer size, the first flagged start and the rest continuing, whose payloads concatenate to the length/channel header plus the PDU; recombining the fragments of a PDU sequence yields the same PDUs in order; an incomplete PDU is not delivered; a write larger than the MTU is rejected without sending anything. Hostile fragments: C91.", "quantifier": "all payloads, buffer sizes, MTUs and PDU sequences", "why_tests_cant": "All fragment boundaries.", "anchors": ["linux/hci/conn.go: Write, writePDU, Read, recombine"]}
{"id": "C33", "title": "Controller buffer accounting", "statement": "Over any interleaving of sends, completed-packet events and disconnections, free buffers plus buffers held by connections is constant; a connection never sends without a free buffer; after disconnection all its buffers are free again. Progress, and packets still in the controller: C92.", "quantifier": "all operation sequences over any number of connections", "why_tests_cant": "History and schedule dependent.", "anchors": ["linux/hci/buffer.go: Pool, Client", "linux/hci/hci.go: handleNumberOfCompletedPackets, cleanupConnectionHandle"]}
{"id": "C34", "title": "L2CAP connection-oriented channel identifiers are unique", "statement": "Dynamic channel identifiers handed out on a connection are within 0x0040..0xFFFF and never repeated; when exhausted, opening fails instead of reusing one.", "quantifier": "all numbers of open operations", "why_tests_cant": "65472 allocations before the boundary.", "anchors": ["linux/hci/coc.go: NextSourceCID"]}
{"id": "C35", "title": "L2CAP CoC credit flow control", "statement": "The number of frames sent on a peer's channel identifier never exceeds the credits the peer granted for it, every frame is at most the MPS announced for it, every received frame gives one credit back, and credit counters never wrap. Reopened channels: C93.", "quantifier": "all sequences of sends and credit grants", "why_tests_cant": "History dependent.", "anchors": ["linux/hci/coc.go: Send, IncrementCredits, DecrementCredits, handlers"]}
{"id": "C36", "title": "L2CAP CoC SDU transfer", "statement": "An SDU sent on a channel and carried by conforming frames is delivered to the receiving subscriber exactly as sent, for any SDU size up to the MTU.", "quantifier": "all SDUs, MPS and MTU values", "why_tests_cant": "All segment counts.", "anchors": ["linux/hci/coc.go"]}
{"id": "C37", "title": "L2CAP signaling encoding", "statement": "Every signaling PDU sent is code, identifier, length of payload, payload; identifiers are never 0 and successive ones differ; decoding the encoding of each signaling structure other than Command Reject (C94) gives the structure back.", "quantifier": "all signaling PDUs and identifier histories", "why_tests_cant": "Wrap-around of identifiers.", "anchors": ["linux/hci/signal.go", "linux/hci/signal_gen.go"]}
{"id": "C38", "title": "HCI command encoding", "statement": "Every command of the API other than the three of C95 is sent as indicator, opcode (little endian), parameter length, and exactly that many parameter bytes, which are the little-endian encoding of the command's fields in specification order; every return parameter structure other than those of C95 is decoded to the specification's fields, failure statuses are reported and short replies rejected; a vendor command of up to 60 parameter bytes is sent as is (else C96).", "quantifier": "all commands and parameter values", "why_tests_cant": "Dozens of structures times all values.", "anchors": ["linux/hci/cmd/cmd_gen.go", "linux/hci/cmd/cmd.go", "linux/hci/hci.go: send"]}
{"id": "C39", "title": "HCI commands are answered by their own completion", "statement": "At most one command per opcode is outstanding; a returned result is that of one completion event for the call's own opcode handled during the call; an event is delivered to at most one call; with a well-behaved controller and no time-outs each command gets its own completion; the commands sent never exceed one plus the allowances granted by events; no call is stuck for ever. Exact flow control, late events, closing: C97.", "quantifier": "all schedules of senders and events", "why_tests_cant": "Schedule dependent.", "anchors": ["linux/hci/hci.go: send, handleCommandComplete, handleCommandStatus, setAllowedCommands"]}
{"id": "C40", "title": "Advertised payload contains what was asked, or an error/omission rule applies", "statement": "AdvertiseNameAndServices puts flags and the longest prefix of the service UUIDs that fits in the advertising data, the name behind them if it fits and otherwise in the scan response if it fits there; both payloads are at most 31 bytes and well formed, and exactly these bytes are sent to the controller. Tagging and errors: C98.", "quantifier": "all names and UUID lists", "why_tests_cant": "All length combinations.", "anchors": ["linux/hci/gap.go: AdvertiseNameAndServices"]}
{"id": "C41", "title": "Connection and scan parameter validation", "statement": "Scan parameters are accepted exactly when each lies in its range of the Core Specification and window <= interval. Connection parameters are accepted exactly when each lies in its range, min <= max, and the timeout is at least a stated bound, which implies timeout >= (1+latency)*maxInterval*2 and coincides with it for latency 0. The exact bound of the specification: C99.", "quantifier": "all parameter values", "why_tests_cant": "Interplay of several ranges over 16-bit values.", "anchors": ["linux/hci/params.go"]}
{"id": "C42", "title": "SMP pairing method selection", "statement": "On a Pairing Response with defined IO capabilities and equal OOB flags (or Secure Connections), the association model used is the one of the Core Specification table for both sides' IO capabilities, OOB and MITM flags; reserved IO capabilities give Just Works; the choice is a function of the exchanged requests only. Other OOB flags, Secure Connections without offer: C100.", "quantifier": "all capability/flag combinations", "why_tests_cant": "Full table incl. invalid encodings.", "anchors": ["linux/hci/smp/handler.go / context.go: determinePairingType"]}
{"id": "C43", "title": "SMP confirm and check values authenticate the peer", "statement": "The cryptographic functions are those of the specification with the specified argument order; a pairing proceeds past confirm/random exchange only if the received confirm value equals the function of the received random, public keys and passkey bits; a Secure Connections bond is stored on a DHKey check only when it equals the value derived from the shared secret, and is the LTK of that agreement unless key distribution messages interfered (C44). What this does not give for passkeys: C101.", "quantifier": "all peer message sequences, over abstract cryptographic functions", "why_tests_cant": "Adversarial message sequences.", "anchors": ["linux/hci/smp/handler.go", "linux/hci/smp/context.go", "linux/hci/smp/crypto.go"]}
{"id": "C44", "title": "A bond is stored only as the result of a completed pairing", "statement": "Key material received from the peer is stored as a bond only after a pairing that this device took part in has completed.", "quantifier": "all peer message sequences", "why_tests_cant": "Adversarial message sequences.", "anchors": ["linux/hci/smp/handler.go: smpOnEncryptionInformation, smpOnMasterIdentification"]}
{"id": "C45", "title": "SMP message handling never crashes or wedges", "statement": "No SMP message sequence from the peer makes the process panic or blocks the connection's receive loop forever.", "quantifier": "all peer message sequences", "why_tests_cant": "Adversarial message sequences.", "anchors": ["linux/hci/smp/manager.go: Handle", "linux/hci/smp/handler.go"]}
{"id": "C46", "title": "Bond store behaves as a map", "statement": "After any sequence of saves and deletes, also from many goroutines and across restarts, Find(addr) returns the last saved bond for that address, other addresses are untouched, and keys are returned byte-identical, as long as no bond without a key is stored (C102).", "quantifier": "all operation histories, all addresses and keys", "why_tests_cant": "History dependent.", "anchors": ["linux/hci/bond/manager.go"]}
{"id": "C47", "title": "Bond store survives a crash during save", "statement": "If the process dies at any point of a save, afterwards either the old or the new set of bonds is found.", "quantifier": "all crash points", "why_tests_cant": "Crash points cannot be enumerated by unit tests.", "anchors": ["linux/hci/bond/manager.go: storeBonds"]}
{"id": "C48", "title": "GATT profile cache behaves as a map", "statement": "Load(addr) returns the profile last stored for addr, Store without replace keeps an existing entry and reports an error, Clear removes everything; other addresses are untouched; also under concurrent calls. Foreign file contents: C103.", "quantifier": "all operation histories", "why_tests_cant": "History dependent.", "anchors": ["cache/cache.go"]}
{"id": "C49", "title": "Characteristic value and handler setup", "statement": "A characteristic or descriptor never has both a static value and a read handler: the conflicting call panics; properties advertised are exactly those of the handlers installed; a duplicate characteristic or descriptor cannot be added through the checked API, distinct ones can.", "quantifier": "all sequences of configuration calls", "why_tests_cant": "History dependent.", "anchors": ["profile.go"]}
{"id": "C50", "title": "Device address text", "statement": "An address's text is its lower-cased input; its bytes are the hex decoding of the text without colons; equal addresses up to case compare equal.", "quantifier": "all address strings", "why_tests_cant": "All strings.", "anchors": ["addr.go"]}
{"id": "C51", "title": "Profile lookups return the first match", "statement": "FindService, FindCharacteristic and FindDescriptor return the first element with the given UUID in declaration order, and nil exactly when the profile has none.", "quantifier": "all profiles and UUIDs", "why_tests_cant": "All trees.", "anchors": ["profile.go: FindService, FindCharacteristic, FindDescriptor"]}
{"id": "C52", "title": "L2CAP signaling requests are answered", "statement": "A well-formed signaling packet within the MTU is survived and handled command by command, each command answered at most once, in order, with its identifier; a longer one is answered by one reject and otherwise ignored; a disconnection request closes nothing and is answered for the fixed channel only; a parameter update is passed on unchanged and accepted as central, rejected as peripheral; an unknown command with an identifier no call waits for is rejected; other commands are handed only to a call of Open that waits for this identifier. Malformed packets, channel requests, identifier collisions: C104.", "quantifier": "all packets and interleavings with calls", "why_tests_cant": "Adversarial input and interleavings.", "anchors": ["linux/hci/signal.go: handleSignal, Signal, handleConnectionParameterUpdateRequest, handleDisconnectRequest"]}
{"id": "C53", "title": "GATT profile cache after a crash", "statement": "If the process dies at any point of Store, afterwards Load returns the old profile, the new one or an error, never another; Clear makes the cache usable again. Usability without Clear: C105.", "quantifier": "all crash points, cache contents and profiles", "why_tests_cant": "Crash points cannot be enumerated by unit tests.", "anchors": ["cache/cache.go: Store, storeCache, loadExisting, Clear"]}
{"id": "C54", "title": "Discovery through the cache", "statement": "DiscoverAndCacheProfile without force returns the cached profile without asking the peer if there is one, and otherwise the discovered profile, which the next call returns; with force it always asks the peer; a failed discovery changes nothing. Without a cache: C106.", "quantifier": "all cache contents, addresses, discovery results", "why_tests_cant": "History dependent.", "anchors": ["linux/gatt/client.go: DiscoverAndCacheProfile", "cache/cache.go"]}
{"id": "C55", "title": "Received data reaches the right connection in order", "statement": "Every ACL packet with a registered connection handle is handed to the connection of that handle, unchanged, once and in order of arrival; a connection receives no packet of another handle, and packets with unknown handles change nothing.", "quantifier": "all packet sequences and interleavings with connects, disconnects, closes", "why_tests_cant": "Interleavings of the event loop with receive loops and calls.", "anchors": ["linux/hci/hci.go: handlePkt, handleACL", "linux/hci/conn.go: newConn, recombine"]}
{"id": "C56", "title": "Connections mirror the controller's events and are handed out once", "statement": "Each successful LE Connection Complete event makes one connection with the event's handle, role and address (shown by RemoteAddr); Dial returns only connections in which this host is central, Accept only others, and no connection is returned twice.", "quantifier": "all event sequences and interleavings of Dial, Accept, Close", "why_tests_cant": "Interleavings.", "anchors": ["linux/hci/hci.go: handleLEConnectionComplete", "linux/hci/gap.go: Dial, Accept", "linux/hci/conn.go: RemoteAddr"]}
{"id": "C57", "title": "No channel misuse in the HCI host", "statement": "No interleaving of packets, Close, Dial, Accept, receive failures, time-outs and shutdown makes the host close a channel twice or send on a closed one; well-formed data and connection events are always survived.", "quantifier": "all interleavings", "why_tests_cant": "Races cannot be enumerated by unit tests.", "anchors": ["linux/hci/hci.go: cleanupConnectionHandle, cleanup, handleACL", "linux/hci/conn.go: Close"]}
{"id": "C58", "title": "No controller packet crashes the process", "statement": "Whatever bytes the controller sends, and whenever calls are cancelled, the process does not panic.", "quantifier": "all packets and interleavings", "why_tests_cant": "Adversarial input and races.", "anchors": ["linux/hci/hci.go: handlePkt, handleEvt, handleLEMeta", "linux/hci/gap.go: cancelDial"]}
{"id": "C59", "title": "Life of a connection", "statement": "A connection is registered from its event until it is removed, and never again afterwards; it is removed only by a disconnection event of its handle, the end of its receive loop, Close or shutdown; Disconnected fires only for removed connections and for all of them (except as in the next property); after Close has returned or the event loop has ended it is removed.", "quantifier": "all executions in which the controller does not reuse a registered handle", "why_tests_cant": "History and interleaving dependent.", "anchors": ["linux/hci/hci.go: handleDisconnectionComplete, cleanupConnectionHandle, cleanup", "linux/hci/conn.go: Close, Disconnected"]}
{"id": "C60", "title": "Disconnected fires when HCI is closed", "statement": "Once a connection is gone, also because HCI was closed, its Disconnected channel is closed.", "quantifier": "all executions", "why_tests_cant": "History dependent.", "anchors": ["linux/hci/hci.go: cleanupConnectionHandle"]}
{"id": "C61", "title": "Close affects only its own connection", "statement": "Calling Close on a connection never ends another connection.", "quantifier": "all interleavings with handle reuse", "why_tests_cant": "Needs a particular race.", "anchors": ["linux/hci/conn.go: Close", "linux/hci/hci.go: cleanupConnectionHandle"]}
{"id": "C62", "title": "The event loop always gets to the next packet", "statement": "No behaviour of a peer, and no absence of a call of Accept, stops the handling of further controller packets for good.", "quantifier": "all executions", "why_tests_cant": "Deadlocks depend on interleavings.", "anchors": ["linux/hci/hci.go: handleACL, handleLEConnectionComplete", "linux/hci/conn.go: newConn"]}
{"id": "C63", "title": "Dial returns the dialled device", "statement": "A connection returned by Dial is to the address that was dialled.", "quantifier": "all addresses and interleavings with cancellation", "why_tests_cant": "Races with cancellation.", "anchors": ["linux/hci/gap.go: Dial, cancelDial", "linux/hci/hci.go: handleLEConnectionComplete"]}
{"id": "C64", "title": "A failed append of service data leaves the packet unchanged", "statement": "When ServiceData16 is reported not to fit, the bytes of the packet are unchanged.", "quantifier": "all packets, all field kinds and values, all sequences of appends", "why_tests_cant": "The boundary depends on every combination of accumulated length and field length.", "anchors": ["linux/adv/packet.go: append, Append, Flags, ShortName, CompleteName, ManufacturerData, AllUUID, SomeUUID, ServiceData16, IBeaconData, IBeacon, Raw"]}
{"id": "C65", "title": "32-bit service data is accessible", "statement": "Service data with a 32-bit UUID in a well-formed packet is returned by the ServiceData accessor.", "quantifier": "all sequences of well-formed records", "why_tests_cant": "Needs induction over the record sequence.", "anchors": ["parser/parser.go: Parse", "linux/adv/packet.go: NewPacket, fields, NewRawPacket"]}
{"id": "C66", "title": "Derived accessors of advertising reports agree with the data", "statement": "SrData returns the attached scan response, and the transmit power in the map form equals TxPowerLevel.", "quantifier": "all byte strings, all report contents", "why_tests_cant": "Out-of-bounds behaviour depends on length bytes inside the input.", "anchors": ["linux/hci/evt/evt_werr.go", "linux/hci/adv.go", "linux/hci/adv_werr.go"]}
{"id": "C67", "title": "Scan responses are matched by address type as well", "statement": "A scan response is attached only to an advertisement with the same address and the same address type.", "quantifier": "all sequences of advertising reports", "why_tests_cant": "History dependent; the ring buffer wraps.", "anchors": ["linux/hci/hci.go: handleLEAdvertisingReport", "linux/hci/adv.go: setScanResponse, ScanResponse"]}
{"id": "C68", "title": "No packet is invented after a stalled transfer", "statement": "Whatever the timing of the serial link, every packet delivered is one that the controller sent.", "quantifier": "all packet sequences and all chunkings of their bytes", "why_tests_cant": "Exponentially many chunkings.", "anchors": ["linux/hci/h4/frame.go: Assemble, waitStart, frame, reset"]}
{"id": "C69", "title": "A database that does not fit the handle space is refused", "statement": "Publishing services that need more handles than exist is reported and never assigns handle 0 or a handle twice.", "quantifier": "all service/characteristic/descriptor trees that fit in the handle space", "why_tests_cant": "Unbounded tree shapes.", "anchors": ["linux/att/db.go: NewDB, genSvcAttr, genCharAttr, idx, at, subrange", "linux/gatt/server.go"]}
{"id": "C70", "title": "Every notifying characteristic has exactly one configuration descriptor", "statement": "However often services are added and whatever descriptors the application added itself, each notifying or indicating characteristic has exactly one client characteristic configuration descriptor, and handles do not move.", "quantifier": "all histories of service additions", "why_tests_cant": "The defect only shows after repeated rebuilds.", "anchors": ["linux/gatt/server.go: AddService, SetServices", "linux/att/db.go: NewDB, genCharAttr, newCCCD"]}
{"id": "C71", "title": "The service-changed handler given to the server is used", "statement": "The indication handler given to the server constructor is the one in the published table, also after RemoveAllServices and SetServices.", "quantifier": "all histories of service additions", "why_tests_cant": "The defect only shows after repeated rebuilds.", "anchors": ["linux/gatt/server.go: AddService, SetServices", "linux/att/db.go: NewDB, genCharAttr, newCCCD"]}
{"id": "C72", "title": "No server PDU exceeds the MTU of the connection", "statement": "Every PDU the server sends is at most min(MTU announced by the client, MTU announced by the server), also answers to Prepare Write.", "quantifier": "all databases, all requests, all MTUs >= 23, all handler behaviours", "why_tests_cant": "Depends on every combination of value sizes, handles and MTU.", "anchors": ["linux/att/server.go: handleRequest and handlers", "handler.go: ResponseWriter"]}
{"id": "C73", "title": "Commands are never answered", "statement": "No command PDU (command flag set) is answered.", "quantifier": "all request opcodes and contents, all databases", "why_tests_cant": "All inputs.", "anchors": ["linux/att/server.go: handleRequest, handlers, newErrorResponse"]}
{"id": "C74", "title": "Read By Group Type for arbitrary ranges and group types", "statement": "Whatever the start of the range, exactly declared services are reported; group types other than Primary (and Secondary) Service are rejected with Unsupported Group Type.", "quantifier": "all databases, ranges, types and MTUs", "why_tests_cant": "All inputs.", "anchors": ["linux/att/server.go: handleReadByGroupRequest"]}
{"id": "C75", "title": "Find By Type Value on any attribute", "statement": "Attributes whose value comes from a handler do not make the request fail, and the reported group end of an attribute that is not a group is its own handle.", "quantifier": "all databases, ranges, types, values and MTUs", "why_tests_cant": "All inputs.", "anchors": ["linux/att/server.go: handleFindByTypeValueRequest"]}
{"id": "C76", "title": "Read Blob of static values", "statement": "Read Blob of a static value returns it from the requested offset; a static value longer than MTU-1 is truncated by Read.", "quantifier": "all databases, handles, offsets, values and MTUs", "why_tests_cant": "All value lengths and offsets.", "anchors": ["linux/att/server.go: handleReadRequest, handleReadBlobRequest", "handler.go: ResponseWriter.Write"]}
{"id": "C77", "title": "Empty Write Commands are delivered", "statement": "A Write Command with an empty value calls the write handler of a writable attribute once.", "quantifier": "all databases, handles, values", "why_tests_cant": "All inputs.", "anchors": ["linux/att/server.go: handleWriteRequest, handleWriteCommand, handleATT"]}
{"id": "C78", "title": "Queued writes honour offsets and attributes", "statement": "Parts are placed at their offsets, and parts for several attributes are delivered to each of them.", "quantifier": "all sequences of prepare and execute requests", "why_tests_cant": "History dependent.", "anchors": ["linux/att/server.go: handlePrepareWriteRequest, handleExecuteWriteRequest"]}
{"id": "C79", "title": "No notifier without configuration", "statement": "Whatever value a client writes, notifiers run exactly for the configuration bits it can read back, at most one per characteristic and kind.", "quantifier": "all sequences of descriptor writes and reads over all characteristics", "why_tests_cant": "History dependent.", "anchors": ["linux/att/db.go: newCCCD", "linux/gatt/server.go", "handler.go: Notifier"]}
{"id": "C80", "title": "The transmit limit is capped by the server's own limit", "statement": "After an MTU exchange the transmit limit is min(client MTU, own limit).", "quantifier": "all client MTU values and all exchange histories", "why_tests_cant": "All values, history dependent.", "anchors": ["linux/att/server.go: handleExchangeMTURequest"]}
{"id": "C81", "title": "A confirmation ends the wait of the indication it confirms", "statement": "When the peer confirms an indication, the call sending it returns success, however soon the confirmation arrives.", "quantifier": "all data, handles, MTUs, interleavings of confirmations", "why_tests_cant": "Schedule dependent.", "anchors": ["linux/att/server.go: notify, indicate, Loop"]}
{"id": "C82", "title": "Prepared and signed writes carry the value", "statement": "A Prepare Write and a Signed Write put exactly their value (and, for the latter, the signature) on the wire, and no other memory content.", "quantifier": "all arguments, all peer responses", "why_tests_cant": "Peer is arbitrary.", "anchors": ["linux/att/client.go: all operations"]}
{"id": "C83", "title": "Malformed bodies are refused by the client", "statement": "A Write Response with a body and a Find Information Response with an undefined format are errors.", "quantifier": "all arguments, all peer responses", "why_tests_cant": "Peer is arbitrary.", "anchors": ["linux/att/client.go: all operations"]}
{"id": "C84", "title": "A response is always to the caller's own request", "statement": "Whatever the peer sends and whenever, the response returned by a call was received after that call's request was sent and before any later request.", "quantifier": "all schedules of concurrent callers, responses, timeouts", "why_tests_cant": "Schedule dependent.", "anchors": ["linux/att/client.go: sendReq, sendCmd, Loop"]}
{"id": "C85", "title": "Unsolicited responses do not stop the client", "statement": "A response nobody asked for does not delay indications and notifications.", "quantifier": "all PDU sequences and consumer schedules", "why_tests_cant": "Schedule dependent.", "anchors": ["linux/att/client.go: Loop, asyncReqLoop"]}
{"id": "C86", "title": "Repeated discovery", "statement": "Discovering again (force) yields the peer's profile once more, not duplicates; a failed discovery is not reported as an empty profile by the next one.", "quantifier": "all peer databases, all response batchings", "why_tests_cant": "Needs induction over the peer's database and batch sizes.", "anchors": ["linux/gatt/client.go: DiscoverServices, DiscoverCharacteristics, DiscoverDescriptors"]}
{"id": "C87", "title": "Filtered discovery and the last handle", "statement": "With a filter every matching service is found even if the peer repeats a UUID; a characteristic or descriptor at handle 0xFFFF ends the discovery normally.", "quantifier": "all peer databases, all response batchings", "why_tests_cant": "Needs induction over the peer's database and batch sizes.", "anchors": ["linux/gatt/client.go: DiscoverServices, DiscoverCharacteristics, DiscoverDescriptors"]}
{"id": "C88", "title": "Discovery survives a hostile peer", "statement": "Whatever the peer answers, discovery terminates without a panic.", "quantifier": "all peer databases, all response batchings", "why_tests_cant": "Needs induction over the peer's database and batch sizes.", "anchors": ["linux/gatt/client.go: DiscoverServices, DiscoverCharacteristics, DiscoverDescriptors"]}
{"id": "C89", "title": "Long reads with differing MTUs", "statement": "The whole value is read also when client and server announced different MTUs.", "quantifier": "all value lengths and MTUs", "why_tests_cant": "Boundary at multiples of MTU-1; unbounded iteration.", "anchors": ["linux/gatt/client.go: ReadLongCharacteristic"]}
{"id": "C90", "title": "Subscription state after failures and repetition", "statement": "A failed call changes only its own kind of subscription; subscribing again replaces the handler; an indication calls only an indication handler; no incoming PDU crashes the process.", "quantifier": "all sequences of subscribe, unsubscribe, clear and incoming notifications; all write outcomes", "why_tests_cant": "History dependent.", "anchors": ["linux/gatt/client.go: Subscribe, Unsubscribe, setHandlers, ClearSubscriptions, HandleNotification"]}
{"id": "C91", "title": "Hostile fragments and controllers are survived", "statement": "A short first fragment, a controller announcing zero-length buffers and an overlong frame neither crash, block nor deliver stale data.", "quantifier": "all payloads, buffer sizes, MTUs and PDU sequences", "why_tests_cant": "All fragment boundaries.", "anchors": ["linux/hci/conn.go: Write, writePDU, Read, recombine"]}
{"id": "C92", "title": "Disconnection always frees buffers, and the controller is never overcommitted", "statement": "After a disconnection the writer and the buffers are released in every schedule; the packets in the controller never exceed its buffers, also across Close.", "quantifier": "all operation sequences over any number of connections", "why_tests_cant": "History and schedule dependent.", "anchors": ["linux/hci/buffer.go: Pool, Client", "linux/hci/hci.go: handleNumberOfCompletedPackets, cleanupConnectionHandle"]}
{"id": "C93", "title": "Credits belong to one channel", "statement": "A frame is sent on a channel only with a credit granted for that channel, also when the identifier was closed and opened again.", "quantifier": "all sequences of sends and credit grants", "why_tests_cant": "History dependent.", "anchors": ["linux/hci/coc.go: Send, IncrementCredits, DecrementCredits, handlers"]}
{"id": "C94", "title": "Command Reject is complete", "statement": "A Command Reject carries its reason and data, and decodes to them.", "quantifier": "all signaling PDUs and identifier histories", "why_tests_cant": "Wrap-around of identifiers.", "anchors": ["linux/hci/signal.go", "linux/hci/signal_gen.go"]}
{"id": "C95", "title": "Every command and reply of the API conforms", "statement": "All commands of the API have the opcode and parameters of the specification, and all replies deliver their return parameters.", "quantifier": "all commands and parameter values", "why_tests_cant": "Dozens of structures times all values.", "anchors": ["linux/hci/cmd/cmd_gen.go", "linux/hci/cmd/cmd.go", "linux/hci/hci.go: send"]}
{"id": "C96", "title": "Vendor commands of every length", "statement": "A vendor command with up to 252 parameter bytes is sent as is or refused, never altered, and never crashes the process.", "quantifier": "all commands and parameter values", "why_tests_cant": "Dozens of structures times all values.", "anchors": ["linux/hci/cmd/cmd_gen.go", "linux/hci/cmd/cmd.go", "linux/hci/hci.go: send"]}
{"id": "C97", "title": "Command flow control and completion in every schedule", "statement": "A command is sent only within the controller's current allowance; a late completion is not taken for that of a later command; time-outs do not stop event handling; closing makes waiting calls fail; vendor commands are completed by ordinary completion events.", "quantifier": "all schedules of senders and events", "why_tests_cant": "Schedule dependent.", "anchors": ["linux/hci/hci.go: send, handleCommandComplete, handleCommandStatus, setAllowedCommands"]}
{"id": "C98", "title": "The UUID list is tagged correctly and errors are reported", "statement": "The service list is marked complete exactly when all UUIDs are in it, and a controller error is returned to the caller.", "quantifier": "all names and UUID lists", "why_tests_cant": "All length combinations.", "anchors": ["linux/hci/gap.go: AdvertiseNameAndServices"]}
{"id": "C99", "title": "The supervision timeout bound is exactly that of the specification", "statement": "Connection parameters are accepted exactly when legal: the timeout must exceed (1+latency)*maxInterval*2.", "quantifier": "all parameter values", "why_tests_cant": "Interplay of several ranges over 16-bit values.", "anchors": ["linux/hci/params.go"]}
{"id": "C100", "title": "Association model for every flag combination", "statement": "The association model is the one of the specification also for one-sided OOB flags, and Secure Connections is used only if both sides offered it.", "quantifier": "all capability/flag combinations", "why_tests_cant": "Full table incl. invalid encodings.", "anchors": ["linux/hci/smp/handler.go / context.go: determinePairingType"]}
{"id": "C101", "title": "Passkey and comparison authenticate the peer", "statement": "A pairing with passkey entry completes only with a peer that knows the passkey; a requested pairing asks for the passkey; numeric comparison asks the user; a pairing with out-of-band data completes only with a peer that has the data.", "quantifier": "all peer message sequences, over abstract cryptographic functions", "why_tests_cant": "Adversarial message sequences.", "anchors": ["linux/hci/smp/handler.go", "linux/hci/smp/context.go", "linux/hci/smp/crypto.go"]}
{"id": "C102", "title": "Bond store with incomplete entries", "statement": "Exists agrees with Find; a bond without a key does not disturb concurrent lookups; no file content crashes the process.", "quantifier": "all operation histories, all addresses and keys", "why_tests_cant": "History dependent.", "anchors": ["linux/hci/bond/manager.go"]}
{"id": "C103", "title": "No cache file content crashes the process", "statement": "Whatever the cache file holds, calls return a profile or an error.", "quantifier": "all operation histories", "why_tests_cant": "History dependent.", "anchors": ["cache/cache.go"]}
{"id": "C104", "title": "Every signaling packet is survived and every request answered", "statement": "Any signaling packet is survived; a request to open a channel is answered; an answer reaches the call that asked and only an answer does.", "quantifier": "all packets and interleavings with calls", "why_tests_cant": "Adversarial input and interleavings.", "anchors": ["linux/hci/signal.go: handleSignal, Signal, handleConnectionParameterUpdateRequest, handleDisconnectRequest"]}
{"id": "C105", "title": "The cache stays usable after a crash", "statement": "After a crash in Store the cache can still be written and read.", "quantifier": "all crash points, cache contents and profiles", "why_tests_cant": "Crash points cannot be enumerated by unit tests.", "anchors": ["cache/cache.go: Store, storeCache, loadExisting, Clear"]}
{"id": "C106", "title": "Discovery without a cache", "statement": "DiscoverAndCacheProfile works without a cache.", "quantifier": "all cache contents, addresses, discovery results", "why_tests_cant": "History dependent.", "anchors": ["linux/gatt/client.go: DiscoverAndCacheProfile", "cache/cache.go"]}
{"id": "C107", "title": "Discovery against this library's own server finds exactly what was published", "statement": "When the client of this library is connected to a device running this library's server, DiscoverProfile returns exactly the services the device published: same UUIDs, characteristics, properties and descriptors in the same order, each with the handle at which the server keeps its value and configuration descriptor; whatever happened before on the connection and whatever the handlers do.", "quantifier": "all published service trees that fit the handle space (UUIDs of 2 or 16 bytes), all earlier histories of the connection, all handler behaviours", "why_tests_cant": "Relates two programs over unbounded trees; a test tries a few trees.", "anchors": ["linux/gatt/client.go: DiscoverProfile", "linux/att/client.go", "linux/att/server.go", "linux/att/db.go: NewDB"]}
{"id": "C108", "title": "Reads and writes between two ends of this library reach the handlers", "statement": "Reading a discovered characteristic calls its read handler once with offset 0 and returns what the handler wrote as far as it fits the server's MTU, or the status it set; static values that fit are returned as they are; a write that fits the MTU calls the write handler once with exactly the value and returns its status; operations without handler fail with Read/Write Not Permitted and call nothing.", "quantifier": "all published service trees, characteristics, values, handler behaviours and earlier histories of the connection", "why_tests_cant": "End-to-end over two programs, all values and all histories.", "anchors": ["linux/gatt/client.go: ReadCharacteristic, WriteCharacteristic", "linux/att/client.go: Read, Write, WriteCommand", "linux/att/server.go: handleReadRequest, handleWriteRequest, handleWriteCommand"]}
{"id": "C109", "title": "Subscriptions between two ends of this library", "statement": "Subscribing to a kind (notify or indicate) that a discovered characteristic offers succeeds at any time; unsubscribing and clearing succeed and remove the registration; the server runs exactly one notifier of a kind for a characteristic while the client has a handler of that kind registered, and none otherwise; what a running notifier sends is handed to that handler.", "quantifier": "all published service trees, all handler behaviours, all histories of a connection: MTU exchanges, discoveries, reads, writes of values, subscriptions, removals and incoming PDUs in any order", "why_tests_cant": "The state is spread over both ends and must agree after every history.", "anchors": ["linux/gatt/client.go: Subscribe, Unsubscribe, ClearSubscriptions, HandleNotification", "linux/att/db.go: newCCCD", "linux/att/server.go"]}
{"id": "C110", "title": "Advertising calls put exactly the requested payload on the air, until stopped", "statement": "On a device that does not advertise, an advertising call whose payload fits succeeds with a controller that accepts it: exactly the requested advertising data and scan response are shown, with the advertising parameters given last; a payload that does not fit is refused and nothing changes. A call while advertising replaces the data and reports the controller's refusal. Nothing that no call asked for is ever shown. Advertising goes on through scanning, dialling, connections and disconnections until Stop; before the first call and after a successful Stop nothing is advertised until the next call.", "quantifier": "all options, all histories of calls, connections and disconnections, all names, UUID lists and data, all controllers that follow the specification (refusing or losing any command; the clauses about success: those that accept what is allowed)", "why_tests_cant": "The state is shared with a controller that may refuse anything at any time; the claim is over all histories.", "anchors": ["linux/hci/gap.go", "linux/device.go: Advertise*", "linux/hci/hci.go: handleLEConnectionComplete, cleanupConnectionHandle", "linux/hci/params.go"]}
{"id": "C111", "title": "Set-up of the controller", "statement": "Init resets the controller whatever it was doing and succeeds exactly if the controller has more than one buffer for LE data (LE buffers if it has any, otherwise ACL buffers); the device address is the controller's; the buffer pool has one buffer less than the controller, each of the controller's size plus the headers; the events for connections, disconnections, advertising reports, connection updates, key requests and encryption changes are enabled; the configured advertising and scan parameters are set; nothing is advertised or scanned. With any controller Init returns and the pool is never larger than the controller's buffers.", "quantifier": "all controllers, all earlier states, all options", "why_tests_cant": "Ranges over all controller identities and refusals.", "anchors": ["linux/hci/hci.go: NewHCI, Init, init, Option", "linux/hci/params.go", "linux/hci/buffer.go: NewPool"]}
{"id": "C112", "title": "Scanning and dialling reach the controller as asked", "statement": "Scan that succeeds leaves the controller scanning with duplicate filtering exactly if duplicates are not allowed, StopScanning that succeeds leaves it not scanning; neither changes advertising. Dial refuses an address that is not six bytes long without a command and otherwise asks for a connection to exactly that address and address type with the connection parameters given last.", "quantifier": "all histories, addresses, options and controllers that follow the specification", "why_tests_cant": "Parameters persist over unbounded histories and are encoded through several layers.", "anchors": ["linux/hci/gap.go: Scan, StopScanning, Dial", "linux/hci/params.go", "linux/hci/cmd/cmd_gen.go"]}
{"id": "C113", "title": "Set-up reports failures and enables every handled event", "statement": "Init and NewHCI report a refused set-up command or a failed option, and every event with a handler is enabled in the controller.", "quantifier": "all controllers, all earlier states, all options", "why_tests_cant": "Ranges over all controller identities and refusals.", "anchors": ["linux/hci/hci.go: NewHCI, Init, init, Option", "linux/hci/params.go", "linux/hci/buffer.go: NewPool"]}
{"id": "C114", "title": "A successful advertising call means advertising", "statement": "An advertising call that returns success has the device advertising the requested payload, also when the controller refuses the data.", "quantifier": "all options, all histories of calls, connections and disconnections, all names, UUID lists and data, all controllers that follow the specification (refusing or losing any command; the clauses about success: those that accept what is allowed)", "why_tests_cant": "The state is shared with a controller that may refuse anything at any time; the claim is over all histories.", "anchors": ["linux/hci/gap.go", "linux/device.go: Advertise*", "linux/hci/hci.go: handleLEConnectionComplete, cleanupConnectionHandle", "linux/hci/params.go"]}
{"id": "C115", "title": "Advertising resumes when a connection ends", "statement": "A device asked to advertise advertises again after a connection ends, also with a controller that cannot advertise while connected.", "quantifier": "all options, all histories of calls, connections and disconnections, all names, UUID lists and data, all controllers that follow the specification (refusing or losing any command; the clauses about success: those that accept what is allowed)", "why_tests_cant": "The state is shared with a controller that may refuse anything at any time; the claim is over all histories.", "anchors": ["linux/hci/gap.go", "linux/device.go: Advertise*", "linux/hci/hci.go: handleLEConnectionComplete, cleanupConnectionHandle", "linux/hci/params.go"]}
{"id": "C116", "title": "Connect dials a matching device", "statement": "What Connect dials was reported by the controller during this call and passed the filter; when it dials, the controller has confirmed the end of the scan; it dials at most once. As soon as a matching report has been received it comes to dialling in every schedule, in a bounded number of steps of the program, unless the context's deadline passes, the controller refuses a scan command or does not answer; it fails only for these reasons. (Handlers run in their own goroutines, the default.)", "quantifier": "all schedules of caller, event loop, handler goroutines, contexts and controller; all filters; all reports, unbounded", "why_tests_cant": "Concurrency of four kinds of threads and two contexts; a test sees a few schedules.", "anchors": ["gatt.go: Connect, Scan, Dial", "linux/device.go: Scan", "linux/hci/hci.go: handleLEAdvertisingReport, sktProcessLoop", "linux/hci/gap.go: Scan, StopScanning, SetAdvHandler"]}
{"id": "C117", "title": "Scan and Find hand over each matching report once", "statement": "The handler is called at most once for a report, only for reports that were received and pass the filter, and for all of them once the program has finished; Scan and Find return the error of their context after it has ended, with the scan confirmed stopped and no report left in the queue, in a bounded number of steps; Find's result consists of matching reports, none twice.", "quantifier": "all schedules, all filters and reports, both handler modes", "why_tests_cant": "The handlers are concurrent with the caller and the event loop.", "anchors": ["gatt.go: Scan, Find", "linux/device.go: Scan", "linux/hci/hci.go: handleLEAdvertisingReport"]}
{"id": "C118", "title": "Connect ends when its context ends", "statement": "Connect returns when its context is cancelled or its deadline passes.", "quantifier": "all schedules of caller, event loop, handler goroutines, contexts and controller; all filters; all reports, unbounded", "why_tests_cant": "Concurrency of four kinds of threads and two contexts; a test sees a few schedules.", "anchors": ["gatt.go: Connect, Scan, Dial", "linux/device.go: Scan", "linux/hci/hci.go: handleLEAdvertisingReport, sktProcessLoop", "linux/hci/gap.go: Scan, StopScanning, SetAdvHandler"]}
{"id": "C119", "title": "Connect works in both handler modes and leaves nothing behind", "statement": "Connect works with synchronous handlers too, does not stop event handling and leaves no goroutine behind.", "quantifier": "all schedules of caller, event loop, handler goroutines, contexts and controller; all filters; all reports, unbounded", "why_tests_cant": "Concurrency of four kinds of threads and two contexts; a test sees a few schedules.", "anchors": ["gatt.go: Connect, Scan, Dial", "linux/device.go: Scan", "linux/hci/hci.go: handleLEAdvertisingReport, sktProcessLoop", "linux/hci/gap.go: Scan, StopScanning, SetAdvHandler"]}
{"id": "C120", "title": "No handler call after Scan has returned, no report lost by Find", "statement": "When Scan has returned the handler is not called any more; Find returns every matching report it was handed.", "quantifier": "all schedules, all filters and reports, both handler modes", "why_tests_cant": "The handlers are concurrent with the caller and the event loop.", "anchors": ["gatt.go: Scan, Find", "linux/device.go: Scan", "linux/hci/hci.go: handleLEAdvertisingReport"]}
{"id": "C121", "title": "Packets from the transport are handled in order, once, until the end", "statement": "The packets handled are at any time, in order and each exactly once, the first of those received, which over UART or TCP are what the framing makes of the bytes read; no empty or incomplete packet reaches a handler; when the program has no step left, either every packet received was handled, or the HCI has stopped. After Close, a transport failure or a failed command write the reading and processing goroutines end and the transport is closed, in a bounded number of steps. The error handler is called at most once by them, exactly once if the HCI stops without Close, and never after Close.", "quantifier": "all schedules of the three goroutines, all reads and failures of the transport, both kinds of transport, any moment of Close", "why_tests_cant": "Three concurrent goroutines with bounded queues; losses and reorderings depend on the schedule.", "anchors": ["linux/hci/hci.go: sktReadLoop, sktProcessLoop, cleanup, Close, close, dispatchError", "linux/hci/h4/h4.go: Read, Close, rxLoop", "linux/hci/h4/frame.go", "linux/hci/socket/socket.go: Read, Close"]}
{"id": "C122", "title": "The cause of the end is reported", "statement": "When the HCI stops by itself the error handler and Error() give the cause.", "quantifier": "all schedules of the three goroutines, all reads and failures of the transport, both kinds of transport, any moment of Close", "why_tests_cant": "Three concurrent goroutines with bounded queues; losses and reorderings depend on the schedule.", "anchors": ["linux/hci/hci.go: sktReadLoop, sktProcessLoop, cleanup, Close, close, dispatchError", "linux/hci/h4/h4.go: Read, Close, rxLoop", "linux/hci/h4/frame.go", "linux/hci/socket/socket.go: Read, Close"]}
{"id": "C123", "title": "No legal packet stops the HCI", "statement": "A complete packet of any length allowed by the format is handled, or dropped, but does not end the HCI.", "quantifier": "all schedules of the three goroutines, all reads and failures of the transport, both kinds of transport, any moment of Close", "why_tests_cant": "Three concurrent goroutines with bounded queues; losses and reorderings depend on the schedule.", "anchors": ["linux/hci/hci.go: sktReadLoop, sktProcessLoop, cleanup, Close, close, dispatchError", "linux/hci/h4/h4.go: Read, Close, rxLoop", "linux/hci/h4/frame.go", "linux/hci/socket/socket.go: Read, Close"]}
{"id": "C124", "title": "Nothing is left running", "statement": "After the HCI has stopped none of its goroutines remains.", "quantifier": "all schedules of the three goroutines, all reads and failures of the transport, both kinds of transport, any moment of Close", "why_tests_cant": "Three concurrent goroutines with bounded queues; losses and reorderings depend on the schedule.", "anchors": ["linux/hci/hci.go: sktReadLoop, sktProcessLoop, cleanup, Close, close, dispatchError", "linux/hci/h4/h4.go: Read, Close, rxLoop", "linux/hci/h4/frame.go", "linux/hci/socket/socket.go: Read, Close"]}
{"id": "C125", "title": "StartEncryption and encryption events: the application is told what happened", "statement": "An Encryption Change event of a connection is passed on, with its status, an error exactly if the status is not 0 and whether encryption is on, to the channel of the last StartEncryption call for that connection that did not return at once (unless a call has failed since), and to nobody else: a waiting receiver gets it at once, otherwise it is kept if the channel has room. Nothing else is ever put into a channel, except that StartEncryption on a connection that is encrypted already returns at once without a command (nil, or ErrEncryptionAlreadyEnabled without a channel) and offers the last event seen. Values leave a channel in order, once each. Calls that wait return nil exactly as often as the controller accepted their command, and each can return. Other packets have no effect.", "quantifier": "all histories of connections, disconnections, packets, calls, PDUs and receive operations, any channel capacities, any schedule, any stored bonds", "why_tests_cant": "Event loop, callers, receive loops and the goroutine of StartEncryption interleave; reports depend on the whole history.", "anchors": ["linux/hci/conn.go: StartEncryption, handleEncryptionChanged, handleEncryptionKeyRefreshComplete", "linux/hci/hci.go: handleEncryptionChange, handleLEMeta"]}
{"id": "C126", "title": "Keys and bonds belong to the peer of the connection", "statement": "A bond is stored only because of a message of the peer of a connection with security, and under that peer's address; it is deleted only by an encryption event with a failure status of a connection to that peer. An LE Start Encryption command names the handle of its connection; started by the application or by a Security Request it carries the key, diversifier and random number of the bond stored for that peer at that moment, or the short term key of a pairing on this very connection; the only other causes are a Pairing Random or DHKey Check message of that connection. With security enabled neither StartEncryption nor an encryption event crashes, whatever earlier pairings have stored.", "quantifier": "all histories over any number of connections, all messages, all stored bonds (keys of Secure Connections bonds at most 16 bytes)", "why_tests_cant": "Isolation between connections over unbounded histories and a shared store.", "anchors": ["linux/hci/conn.go: StartEncryption, encrypt, stkEncrypt, handleEncryptionChanged", "linux/hci/smp/manager.go: StartEncryption, DeleteBondInfo, Handle", "linux/hci/smp/transport.go: saveBondInfo"]}
{"id": "C127", "title": "Encryption cannot crash the program", "statement": "No encryption event and no call of StartEncryption or Pair crashes, whether or not security was enabled.", "quantifier": "all histories over any number of connections, all messages, all stored bonds (keys of Secure Connections bonds at most 16 bytes)", "why_tests_cant": "Isolation between connections over unbounded histories and a shared store.", "anchors": ["linux/hci/conn.go: StartEncryption, encrypt, stkEncrypt, handleEncryptionChanged", "linux/hci/smp/manager.go: StartEncryption, DeleteBondInfo, Handle", "linux/hci/smp/transport.go: saveBondInfo"]}
{"id": "C128", "title": "A refreshed key is reported", "statement": "Encryption Key Refresh Complete is reported to the application like Encryption Change, and no other event is taken for it.", "quantifier": "all histories of connections, disconnections, packets, calls, PDUs and receive operations, any channel capacities, any schedule, any stored bonds", "why_tests_cant": "Event loop, callers, receive loops and the goroutine of StartEncryption interleave; reports depend on the whole history.", "anchors": ["linux/hci/conn.go: StartEncryption, handleEncryptionChanged, handleEncryptionKeyRefreshComplete", "linux/hci/hci.go: handleEncryptionChange, handleLEMeta"]}
{"id": "C129", "title": "A caller of StartEncryption learns the outcome", "statement": "When StartEncryption has returned nil, the outcome of the encryption reaches its channel.", "quantifier": "all histories of connections, disconnections, packets, calls, PDUs and receive operations, any channel capacities, any schedule, any stored bonds", "why_tests_cant": "Event loop, callers, receive loops and the goroutine of StartEncryption interleave; reports depend on the whole history.", "anchors": ["linux/hci/conn.go: StartEncryption, handleEncryptionChanged, handleEncryptionKeyRefreshComplete", "linux/hci/hci.go: handleEncryptionChange, handleLEMeta"]}
{"id": "C130", "title": "A failed encryption is not taken for an encrypted connection", "statement": "After an event with a failure status StartEncryption tries again.", "quantifier": "all histories of connections, disconnections, packets, calls, PDUs and receive operations, any channel capacities, any schedule, any stored bonds", "why_tests_cant": "Event loop, callers, receive loops and the goroutine of StartEncryption interleave; reports depend on the whole history.", "anchors": ["linux/hci/conn.go: StartEncryption, handleEncryptionChanged, handleEncryptionKeyRefreshComplete", "linux/hci/hci.go: handleEncryptionChange, handleLEMeta"]}
{"id": "C131", "title": "Requests are served one at a time, in order and unmodified, under every schedule", "statement": "The requests the ATT server hands to the handlers are, in order and each exactly once, the first of those the connection delivered; each one's answer (if any) is written before the next is handled; answers and handler calls are those of a server that does one request after the other; the bytes a handler sees are those that arrived, until its answer is written, although a reading goroutine reads ahead (at most two requests).", "quantifier": "all service tables, all sequences of PDUs, all schedules of reader, handler and notifying goroutines, all failures of writes", "why_tests_cant": "Two buffers are recycled between two goroutines; an error shows only in some schedules.", "anchors": ["linux/att/server.go: Loop, handleRequest, notify, indicate, handleExchangeMTURequest", "linux/hci/conn.go: Read"]}
{"id": "C132", "title": "The ATT server makes progress under every schedule", "statement": "Without new input the server comes to rest after a bounded number of steps. At rest, once the timers of pending indications have expired or none is pending, every request that was delivered has been served and its answer written, also those delivered just before the end of the connection; every call of Write on a notifier has returned exactly once. While an indication waits for its confirmation requests go on being served (as long as no MTU exchange is asked for).", "quantifier": "all service tables, PDU sequences and schedules; PDUs of 1 to 515 bytes; requests that do not crash their handler (C13)", "why_tests_cant": "Freedom from deadlock over all interleavings.", "anchors": ["linux/att/server.go: Loop, notify, indicate, handleExchangeMTURequest"]}
{"id": "C133", "title": "The end of a connection ends its ATT server", "statement": "When the connection ends, the server closes it once and Loop returns once, in every schedule; then no notifier is left open (if the configuration descriptors were given supported values only). The goroutines add no crash of their own: without a request whose handling crashes there is none.", "quantifier": "all service tables, PDU sequences, calls and schedules", "why_tests_cant": "The end may come at any moment of any schedule.", "anchors": ["linux/att/server.go: Loop"]}
{"id": "C134", "title": "What a call of Notifier.Write does and reports", "statement": "A call puts at most one PDU on the air, of the kind and value handle of its notifier, carrying its data or at least the first 20 bytes; it returns at most once; for a notification nil means that the connection took the PDU; for an indication that it was confirmed, exactly once; an error of the connection, the end of the server and the time-out are reported as such. At most one indication of a connection is unconfirmed at any time. Nothing is sent that no call asked for.", "quantifier": "all service tables, any number of concurrent calls, all schedules and failures", "why_tests_cant": "Concurrent calls share one buffer and one confirmation channel.", "anchors": ["linux/att/server.go: notify, indicate, Loop", "handler.go: notifier.Write"]}
{"id": "C135", "title": "A confirmation ends the wait", "statement": "A confirmation that has arrived ends the call that waits for it without any timer.", "quantifier": "all service tables, PDU sequences and schedules; PDUs of 1 to 515 bytes; requests that do not crash their handler (C13)", "why_tests_cant": "Freedom from deadlock over all interleavings.", "anchors": ["linux/att/server.go: Loop, notify, indicate, handleExchangeMTURequest"]}
{"id": "C136", "title": "Only the end of the connection ends the serving", "statement": "The server goes on until the connection ends, whatever PDUs arrive.", "quantifier": "all service tables, PDU sequences, calls and schedules", "why_tests_cant": "The end may come at any moment of any schedule.", "anchors": ["linux/att/server.go: Loop"]}
{"id": "C137", "title": "Data given to a write handler stays the same", "statement": "A write handler may keep the data of a request after it has returned.", "quantifier": "all service tables, all sequences of PDUs, all schedules of reader, handler and notifying goroutines, all failures of writes", "why_tests_cant": "Two buffers are recycled between two goroutines; an error shows only in some schedules.", "anchors": ["linux/att/server.go: Loop, handleRequest, notify, indicate, handleExchangeMTURequest", "linux/hci/conn.go: Read"]}
{"id": "C138", "title": "No PDU longer than the old MTU before the MTU response", "statement": "Until the answer to an Exchange MTU Request is written no PDU is longer than the MTU before it.", "quantifier": "all service tables, all sequences of PDUs, all schedules of reader, handler and notifying goroutines, all failures of writes", "why_tests_cant": "Two buffers are recycled between two goroutines; an error shows only in some schedules.", "anchors": ["linux/att/server.go: Loop, handleRequest, notify, indicate, handleExchangeMTURequest", "linux/hci/conn.go: Read"]}
{"id": "C139", "title": "Nothing is sent after the peer has switched it off", "statement": "After a write to the configuration descriptor that switches notifications off has been answered, none is sent.", "quantifier": "all service tables, any number of concurrent calls, all schedules and failures", "why_tests_cant": "Concurrent calls share one buffer and one confirmation channel.", "anchors": ["linux/att/server.go: notify, indicate, Loop", "handler.go: notifier.Write"]}
{"id": "C140", "title": "Every connection is served from the services published when it was accepted", "statement": "The table a connection is served from is the one made of the services published when it was accepted, in the order of their publication and each as the application created it (plus configuration descriptors); handles, types, values and user handlers of it never change while the connection lasts. What happens on a connection does not depend on other connections, nor on publications of services that are not in its table: its behaviour is that of a lone ATT server on that table.", "quantifier": "all histories of creating, adding, setting and removing services, accepting connections, and activity of any number of connections in any interleaving", "why_tests_cant": "Services are shared objects that every publication rewrites, while any number of connections is being served.", "anchors": ["linux/device.go: loop, AddService, RemoveAllServices, SetServices", "linux/gatt/server.go: AddService, RemoveAllServices, SetServices", "linux/att/db.go: NewDB, genCharAttr, newCCCD"]}
{"id": "C141", "title": "Publishing services does not disturb the connections there are", "statement": "AddService and SetServices leave the connections accepted before as they are: notifications name the value handle the peer knows, its configuration is kept and obeyed.", "quantifier": "all histories of creating, adding, setting and removing services, accepting connections, and activity of any number of connections in any interleaving", "why_tests_cant": "Services are shared objects that every publication rewrites, while any number of connections is being served.", "anchors": ["linux/device.go: loop, AddService, RemoveAllServices, SetServices", "linux/gatt/server.go: AddService, RemoveAllServices, SetServices", "linux/att/db.go: NewDB, genCharAttr, newCCCD"]}
{"id": "C142", "title": "A connection we made serves the peer's requests in order, one at a time", "statement": "On a connection made with Dial the requests of the peer reach the handlers of the embedded server in the order they were received, unmodified, each at most once; answers and handler calls are those of a server that does one request after the other; each answer is written before the next request is handled. A request is thrown away only when ten others wait. A call of Write on a notifier of such a connection puts at most one PDU on the air, with its data, and returns at most once. A crash of the serving side comes from the handling of a request.", "quantifier": "all service tables, all sequences of PDUs of the peer, any number of concurrent requests of ours and calls of notifiers, all schedules and failures", "why_tests_cant": "Client goroutines, the serving goroutine and the application's calls interleave without bound.", "anchors": ["linux/att/client.go: Loop, asyncReqLoop, sendResp, WithServer", "linux/att/server.go: HandleRequest, notify, indicate", "linux/device.go: Dial", "linux/gatt/client.go: NewClient, ClientWithServer"]}
{"id": "C143", "title": "Serving the peer does not disturb our own requests, and cannot deadlock with them", "statement": "On a connection made with Dial no answer is written between a request of ours and its end; everything promised about our own requests, notifications and indications (C27, C28) holds as without a server; from every reachable state, without the peer sending anything more, every request of the peer that was not thrown away can still be handled and answered (or its handling crashes).", "quantifier": "all histories and schedules of a client with an embedded server", "why_tests_cant": "Two users of one transmit buffer and nested waits on several channels; freedom from deadlock over all interleavings.", "anchors": ["linux/att/client.go: sendReq, sendResp, asyncReqLoop, Loop"]}
{"id": "C144", "title": "Every request of the peer is answered", "statement": "Every request the peer sends on a connection we made is handled and answered.", "quantifier": "all service tables, all sequences of PDUs of the peer, any number of concurrent requests of ours and calls of notifiers, all schedules and failures", "why_tests_cant": "Client goroutines, the serving goroutine and the application's calls interleave without bound.", "anchors": ["linux/att/client.go: Loop, asyncReqLoop, sendResp, WithServer", "linux/att/server.go: HandleRequest, notify, indicate", "linux/device.go: Dial", "linux/gatt/client.go: NewClient, ClientWithServer"]}
{"id": "C145", "title": "An answer does not wait for our own request", "statement": "The answer to a request of the peer is written without waiting for the peer's answer to ours.", "quantifier": "all histories and schedules of a client with an embedded server", "why_tests_cant": "Two users of one transmit buffer and nested waits on several channels; freedom from deadlock over all interleavings.", "anchors": ["linux/att/client.go: sendReq, sendResp, asyncReqLoop, Loop"]}
{"id": "C146", "title": "A confirmation ends an indication on a connection we made", "statement": "An indication sent on a connection made with Dial ends when the peer has confirmed it.", "quantifier": "all service tables, all sequences of PDUs of the peer, any number of concurrent requests of ours and calls of notifiers, all schedules and failures", "why_tests_cant": "Client goroutines, the serving goroutine and the application's calls interleave without bound.", "anchors": ["linux/att/client.go: Loop, asyncReqLoop, sendResp, WithServer", "linux/att/server.go: HandleRequest, notify, indicate", "linux/device.go: Dial", "linux/gatt/client.go: NewClient, ClientWithServer"]}
{"id": "C147", "title": "The end of a connection we made closes its notifiers", "statement": "When a connection made with Dial ends its notifiers are closed.", "quantifier": "all service tables, all sequences of PDUs of the peer, any number of concurrent requests of ours and calls of notifiers, all schedules and failures", "why_tests_cant": "Client goroutines, the serving goroutine and the application's calls interleave without bound.", "anchors": ["linux/att/client.go: Loop, asyncReqLoop, sendResp, WithServer", "linux/att/server.go: HandleRequest, notify, indicate", "linux/device.go: Dial", "linux/gatt/client.go: NewClient, ClientWithServer"]}
{"id": "C148", "title": "Client calls and notification handlers never overlap", "statement": "While a notification handler of a client runs, no request of that client's methods is sent, no other handler of it is called and none of its methods returns (except Conn, Pair, StartEncryption, OpenLECreditBasedConnection, ConnectionHandle); from the first request of a method until it returns no other method sends or returns and no handler is called.", "quantifier": "any number of goroutines calling any methods, all sequences of notifications, all schedules, all outcomes of the calls", "why_tests_cant": "Mutual exclusion over all interleavings of goroutines and notifications.", "anchors": ["linux/gatt/client.go: Client, HandleNotification, ReadCharacteristic, WriteCharacteristic, Subscribe, Unsubscribe, ClearSubscriptions, CancelConnection, Disconnected, Name, Addr, Profile", "linux/att/client.go: Loop"]}
{"id": "C149", "title": "Which notifications reach which handler, under concurrency", "statement": "Notifications and indications are dealt with in the order of their arrival, each at most once; one is thrown away only when sixteen others wait. A handler is only called with the value of a notification for a characteristic it was successfully subscribed to. After Unsubscribe has returned, no notification (and, when both kinds are unsubscribed, nothing) is delivered for the characteristic until a Subscribe returns. The numbers handed to the handlers of a characteristic start at 0 and grow by one with each notification for it, as long as no (un)subscription of it fails and the subscriptions are not cleared. Concurrent calls have the effect of the same calls made one after the other in the order they return.", "quantifier": "any number of goroutines calling any methods, all sequences of notifications, all schedules, all outcomes of the calls", "why_tests_cant": "Linearizability of the subscription state with respect to calls and notifications over all interleavings.", "anchors": ["linux/gatt/client.go: setHandlers, HandleNotification, Subscribe, Unsubscribe, ClearSubscriptions", "linux/att/client.go: Loop"]}
{"id": "C150", "title": "A client cannot deadlock as long as its handlers do not call it", "statement": "As long as no notification handler calls a method of its client (other than those that take no lock), handlers return and requests end: whenever a call has not returned or a notification has not been dealt with, something can go on; without new calls and notifications this comes to an end after finitely many steps, with every call returned and every notification dealt with (unless a short notification or a short transmit buffer ends the process).", "quantifier": "any number of goroutines calling any methods, all sequences of notifications, all schedules", "why_tests_cant": "Freedom from deadlock and termination over all interleavings.", "anchors": ["linux/gatt/client.go: Client, HandleNotification", "linux/att/client.go: Loop"]}
{"id": "C151", "title": "A notification handler may use its client", "statement": "A notification handler can call the methods of its client.", "quantifier": "any number of goroutines calling any methods, all sequences of notifications, all schedules", "why_tests_cant": "Freedom from deadlock and termination over all interleavings.", "anchors": ["linux/gatt/client.go: Client, HandleNotification", "linux/att/client.go: Loop"]}
{"id": "C152", "title": "Closing a connection does not wait for others", "statement": "CancelConnection returns without waiting for requests of other goroutines or for running notification handlers.", "quantifier": "any number of goroutines calling any methods, all sequences of notifications, all schedules, all outcomes of the calls", "why_tests_cant": "Mutual exclusion over all interleavings of goroutines and notifications.", "anchors": ["linux/gatt/client.go: Client, HandleNotification, ReadCharacteristic, WriteCharacteristic, Subscribe, Unsubscribe, ClearSubscriptions, CancelConnection, Disconnected, Name, Addr, Profile", "linux/att/client.go: Loop"]}
{"id": "C153", "title": "No notification is lost while a call or a handler runs", "statement": "Every notification for a subscribed characteristic is delivered.", "quantifier": "any number of goroutines calling any methods, all sequences of notifications, all schedules, all outcomes of the calls", "why_tests_cant": "Linearizability of the subscription state with respect to calls and notifications over all interleavings.", "anchors": ["linux/gatt/client.go: setHandlers, HandleNotification, Subscribe, Unsubscribe, ClearSubscriptions", "linux/att/client.go: Loop"]}
{"id": "C154", "title": "Every request returns the answer, or an error after silence", "statement": "A request of the attribute client returns the first PDU from the peer that answers it, as long as no two seconds pass without a PDU; two seconds of silence end it with an error; it always returns, within two seconds for each stray PDU and two more.", "quantifier": "all sequences of PDUs with all arrival times", "why_tests_cant": "Arbitrary sequences and timings.", "anchors": ["linux/att/client.go: sendReq"]}
{"id": "C155", "title": "A request ends after two seconds", "statement": "A request without an answer returns an error after two seconds.", "quantifier": "all sequences of PDUs with all arrival times", "why_tests_cant": "Arbitrary sequences and timings.", "anchors": ["linux/att/client.go: sendReq"]}
{"id": "C156", "title": "The configuration of a device is that of the last option of each kind", "statement": "Whatever options NewDevice is given, in whatever order and however often: each setting (dial and listen time-out, connection, scan and advertising parameters, synchronous handler, error handler, cache file, bond manager, transport) is the one given last, and the documented default if none was given; security is on exactly if a bond manager was given. Options given later to the device change only what they name. The options of the package are never refused.", "quantifier": "all lists of options", "why_tests_cant": "Lists of options of any length and order.", "anchors": ["option.go: Option, Opt*", "linux/hci/option.go: Set*, EnableSecurity", "linux/hci/hci.go: NewHCI, Option"]}
{"id": "C157", "title": "What NewDevice opens, and what it leaves behind when it fails", "statement": "A device returned by NewDevice is served over the transport asked for (HCI device number, TCP address, serial port and rate), which is open, opened once and not used by anything else; its parameters are legal. When NewDevice fails because the transport cannot be opened, breaks during set-up or the controller has no buffers, no goroutine stays and the open descriptors are those of before once the goroutines it had started are gone. NewDevice succeeds if the transport can be opened, the parameters are legal and the controller carries out the set-up.", "quantifier": "all options, all behaviours of the operating system and of the controller, at every moment, all histories of other devices of the process", "why_tests_cant": "Every system call may fail at every moment; devices appear and disappear.", "anchors": ["linux/device.go: NewDevice, NewDeviceWithNameAndHandler", "linux/hci/hci.go: Init", "linux/hci/transport.go: getTransport", "linux/hci/socket/socket.go: NewSocket, open", "linux/hci/h4/h4.go: NewSerial, NewSocket"]}
{"id": "C158", "title": "An HCI device is used by one device of the process at a time", "statement": "Over all histories of NewDevice and Stop calls of a process no HCI device is held twice; a device that was not stopped has its transport open. The HCI device opened was free when it was taken. Once the goroutines of a stopped device are gone, its HCI device can be opened again.", "quantifier": "all histories of NewDevice and Stop calls, all behaviours of the operating system", "why_tests_cant": "Histories of any length.", "anchors": ["linux/hci/socket/socket.go: NewSocket, open, Close", "linux/device.go: NewDeviceWithNameAndHandler, Stop"]}
{"id": "C159", "title": "A UART or TCP transport starts silent", "statement": "A UART or TCP transport is used only after a reset command was written and a read returned nothing; all bytes read before that are thrown away. If it does not fall silent before the deadline, opening it fails; it never waits for ever.", "quantifier": "all sequences of reads with all contents and timings", "why_tests_cant": "Arbitrary sequences of reads.", "anchors": ["linux/hci/h4/h4.go: NewSerial, NewSocket, resetAndWaitIdle"]}
{"id": "C160", "title": "An option that cannot be carried out is reported", "statement": "An option that cannot be carried out (a bond manager of the wrong type, an unsupported role) makes NewDevice fail.", "quantifier": "all lists of options", "why_tests_cant": "Lists of options of any length and order.", "anchors": ["option.go: Option, Opt*", "linux/hci/option.go: Set*, EnableSecurity", "linux/hci/hci.go: NewHCI, Option"]}
{"id": "C161", "title": "A failed NewDevice leaves nothing open", "statement": "When NewDevice fails, whatever the reason, nothing it opened stays open.", "quantifier": "all options, all behaviours of the operating system and of the controller, at every moment, all histories of other devices of the process", "why_tests_cant": "Every system call may fail at every moment; devices appear and disappear.", "anchors": ["linux/device.go: NewDevice, NewDeviceWithNameAndHandler", "linux/hci/hci.go: Init", "linux/hci/transport.go: getTransport", "linux/hci/socket/socket.go: NewSocket, open", "linux/hci/h4/h4.go: NewSerial, NewSocket"]}
{"id": "C162", "title": "NewDevice waits for a busy HCI device", "statement": "When the HCI device asked for becomes available within the minute during which NewDevice keeps trying, it is opened.", "quantifier": "all options, all behaviours of the operating system and of the controller, at every moment, all histories of other devices of the process", "why_tests_cant": "Every system call may fail at every moment; devices appear and disappear.", "anchors": ["linux/device.go: NewDevice, NewDeviceWithNameAndHandler", "linux/hci/hci.go: Init", "linux/hci/transport.go: getTransport", "linux/hci/socket/socket.go: NewSocket, open", "linux/hci/h4/h4.go: NewSerial, NewSocket"]}
{"id": "C163", "title": "The first available HCI device is found", "statement": "With id -1 an available HCI device is opened if there is one.", "quantifier": "all histories of NewDevice and Stop calls, all behaviours of the operating system", "why_tests_cant": "Histories of any length.", "anchors": ["linux/hci/socket/socket.go: NewSocket, open, Close", "linux/device.go: NewDeviceWithNameAndHandler, Stop"]}
{"id": "C164", "title": "A stopped device can be opened again", "statement": "After Stop has returned, the HCI device can be opened again by NewDevice.", "quantifier": "all histories of NewDevice and Stop calls, all behaviours of the operating system", "why_tests_cant": "Histories of any length.", "anchors": ["linux/hci/socket/socket.go: NewSocket, open, Close", "linux/device.go: NewDeviceWithNameAndHandler, Stop"]}
{"id": "C165", "title": "What is written on a connection is what the other end reads", "statement": "Whatever is written on one end of a connection, in writes of any size up to the MTU: provided the controllers carry the payload bytes over in order (cutting them into packets anew, under the receiver's handle), at every moment of every execution of the receiving host the payloads its reader has obtained are exactly the first k written, in order and unchanged, and all of them once everything has arrived and been taken - as long as the connection is registered, whatever else the host does.", "quantifier": "all sequences of writes, all packet sizes on both sides, all executions of the receiving host", "why_tests_cant": "All payloads, all fragmentations and all interleavings with other traffic and other connections.", "anchors": ["linux/hci/conn.go: Write, writePDU, recombine, Read", "linux/hci/hci.go: handleACL, handleLEConnectionComplete, cleanupConnectionHandle"]}
{"id": "C166", "title": "An interrupt during a call runs the handler and does not end the process", "statement": "With a context made by WithSigHandler: an interrupt (SIGINT, SIGTERM) while AdvertiseNameAndServices, AdvertiseIBeacon(Data), Scan, Find, Dial or either half of Connect is in its operation does not end the process, and the handler has been called or is about to be called unless the call's context ends; it is called only after such an interrupt, at most once per call (twice for Find and Connect). When all calls have returned, interrupts have their default effect again, as they have at all times when no context carries a handler. Without a default device the calls return at once and leave nothing.", "quantifier": "all interleavings of any number of concurrent calls, contexts ending and interrupts", "why_tests_cant": "Signals arrive at every moment, in every interleaving.", "anchors": ["gatt.go: trap, untrap, WithSigHandler, Scan, Find, Dial, Connect, Advertise*"]}
{"id": "C167", "title": "A call leaves nothing behind when it has returned", "statement": "When a call with a handler has returned, none of its goroutines is left and its handler is not called any more.", "quantifier": "all interleavings of any number of concurrent calls, contexts ending and interrupts", "why_tests_cant": "Signals arrive at every moment, in every interleaving.", "anchors": ["gatt.go: trap, untrap, WithSigHandler, Scan, Find, Dial, Connect, Advertise*"]}
{"id": "C168", "title": "One interrupt calls the handler once", "statement": "One interrupt during one call makes one call of the handler.", "quantifier": "all interleavings of any number of concurrent calls, contexts ending and interrupts", "why_tests_cant": "Signals arrive at every moment, in every interleaving.", "anchors": ["gatt.go: trap, untrap, WithSigHandler, Scan, Find, Dial, Connect, Advertise*"]}
{"id": "C169", "title": "Connect is protected throughout", "statement": "An interrupt at any time during Connect with a handler does not end the process.", "quantifier": "all interleavings of any number of concurrent calls, contexts ending and interrupts", "why_tests_cant": "Signals arrive at every moment, in every interleaving.", "anchors": ["gatt.go: trap, untrap, WithSigHandler, Scan, Find, Dial, Connect, Advertise*"]}
{"id": "C170", "title": "A transport may be used and closed by several goroutines", "statement": "Read, Write and Close of a transport may be called by any number of goroutines, in a process that opens and closes other files: no call ever closes a file that is not the transport's; when a Close (any of several) has returned, the transport's file is closed; before a Close began it is open. A Read that returns data took exactly these bytes, once, from the transport's file; a Write that reports success wrote its packet whole and once, one that fails wrote nothing. Calls begun after a Close has returned report io.EOF (Close: success) and touch nothing. A Read asks for data only when there are some. At most one call reads or closes, and one writes, at a time; there is no deadlock and every call takes at most six steps.", "quantifier": "any number of concurrent calls, all schedules, all results of the system calls, all openings and closings of other files", "why_tests_cant": "Races between Close and the other calls, with descriptor numbers used again, over all interleavings.", "anchors": ["linux/hci/socket/socket.go: Read, Write, Close, isOpen", "linux/hci/h4/h4.go: Write, Close, isOpen"]}
{"id": "C171", "title": "A closed transport no longer touches its descriptor", "statement": "After Close has returned, no call of the transport, also none begun before, reads or writes anything.", "quantifier": "any number of concurrent calls, all schedules, all results of the system calls, all openings and closings of other files", "why_tests_cant": "Races between Close and the other calls, with descriptor numbers used again, over all interleavings.", "anchors": ["linux/hci/socket/socket.go: Read, Write, Close, isOpen", "linux/hci/h4/h4.go: Write, Close, isOpen"]}
{"id": "C172", "title": "Which PDUs pairing sends, and in answer to what", "statement": "In every execution each received Security Manager PDU, each call of Pair and each time-out makes the device send at most one Security Manager PDU, on channel 6 with the right length. To a Pairing Response it answers with its public key or a confirm value, to a confirm with its random number, to a random number with the next confirm or the DHKey check, to a Security Request with a Pairing Request, to a public key with the first confirm of a passkey, to a PDU a responder never sends with Pairing Failed (command not supported), which changes nothing; to any other it does not answer. Pair sends a Pairing Request.", "quantifier": "all states, all received PDUs, all keys, random numbers and failures", "why_tests_cant": "Every state of the pairing with every PDU.", "anchors": ["linux/hci/smp/manager.go: Handle, Pair, StartEncryption", "linux/hci/smp/handler.go", "linux/hci/smp/transport.go", "linux/hci/smp/dispatch.go"]}
{"id": "C173", "title": "The map of an advertisement", "statement": "ToMap of every advertisement a scan hands to its user succeeds. Its mac entry is the six address bytes, most significant first, as twelve lower-case hexadecimal digits; address type, event type and connectable are those of the report; rssi is the report's signed strength, -128 when that is 0. Each advertising field present in the data of the report, followed by the data of the attached scan response, has its entry (name as text, transmit power as the unsigned number, manufacturer data, flags, service and solicited UUIDs, service data listed under each UUID's text in the order it came), a field that is not there has none; an error entry is there exactly when those data end malformed.", "quantifier": "all report sequences, all addresses, types, strengths and data", "why_tests_cant": "Every report with every record list and every history of scan responses.", "anchors": ["linux/hci/adv.go: ToMap", "linux/adv/packet.go: Map", "linux/hci/adv_werr.go"]}
{"id": "C174", "title": "The map has the same values as the accessors", "statement": "RSSI and TxPowerLevel return the same numbers as the rssi and txPower entries of ToMap.", "quantifier": "all report sequences, all addresses, types, strengths and data", "why_tests_cant": "Every report with every record list and every history of scan responses.", "anchors": ["linux/hci/adv.go: ToMap", "linux/adv/packet.go: Map", "linux/hci/adv_werr.go"]}
{"id": "C175", "title": "What one device advertises is what another one's scan shows", "statement": "For every advertising call but the raw ones (name and services, advertisement with manufacturer data, manufacturer data, 16-bit service data, iBeacon): whatever reports a scanning device has received before, the advertisement its user gets for a report of what the call put on the air shows as Services exactly the given UUIDs, in order, as far as they fit (28 bytes, two more per UUID), as LocalName the name if it fits beside them and otherwise no name, as ManufacturerData and ServiceData what was given (of AdvertiseAdv if it fits beside the name), no solicited services. When the device's scan response follows, with fewer than 127 advertisements of others in between, the advertisement handed over for it shows the same and in addition the name if it has at most 29 bytes, and the manufacturer data if there was room for it only in the scan response. Nothing else is shown.", "quantifier": "all calls with all arguments, all report histories of the scanner, all addresses", "why_tests_cant": "Every argument with every history: the composition of building, carrying, remembering, merging and parsing.", "anchors": ["linux/hci/gap.go: AdvertiseNameAndServices, AdvertiseAdv, AdvertiseMfgData, AdvertiseServiceData16, AdvertiseIBeacon, AdvertiseIBeaconData", "linux/adv/packet.go", "linux/hci/hci.go: handleLEAdvertisingReport", "linux/hci/adv.go: LocalName, Services, OverflowService, ManufacturerData, ServiceData, SolicitedService"]}
{"id": "C176", "title": "Calls of Pair and their returns", "statement": "In every execution of a connection's pairing every call of Pair returns at most once; at every moment all calls but at most one have returned, and that one can return by its time-out, which is never prevented. At most one call in the life of a connection does not return at once, every call after it fails at once, sends nothing and changes nothing, and at most one call reports success.", "quantifier": "all sequences of received PDUs, calls, time-outs and failures", "why_tests_cant": "Every interleaving of messages, calls and time-outs.", "anchors": ["linux/hci/smp/manager.go: Pair, waitResult, Handle"]}
{"id": "C177", "title": "A failed pairing can be tried again", "statement": "After a call of Pair has failed or timed out, a further call on the same connection tries to pair again.", "quantifier": "all sequences of received PDUs, calls, time-outs and failures", "why_tests_cant": "Every interleaving of messages, calls and time-outs.", "anchors": ["linux/hci/smp/manager.go: Pair, waitResult, Handle"]}
{"id": "C178", "title": "Profile.Find searches by the target's type and UUID", "statement": "For a target that points to a service, characteristic or descriptor, Find returns the first element of the profile of that type with the target's UUID, in declaration order, and a nil pointer of the target's type if there is none; it does not panic. For every other target it returns nil.", "quantifier": "all profiles, all targets of all types", "why_tests_cant": "All trees and targets.", "anchors": ["profile.go: Find, FindService, FindCharacteristic, FindDescriptor"]}
{"id": "C179", "title": "Find's result can be tested for nil", "statement": "The result of Find equals nil exactly when the profile has no element of the target's type and UUID (the test made in examples/blesh), and a nil pointer as target is survived.", "quantifier": "all profiles, all targets of all types", "why_tests_cant": "All trees and targets.", "anchors": ["profile.go: Find, FindService, FindCharacteristic, FindDescriptor"]}
{"id": "C180", "title": "What a connection says of itself", "statement": "In every history of the host, RemoteAddr of a connection is the text of the address in its connection event: six bytes, most significant first, as pairs of lower-case hexadecimal digits separated by colons, so that two addresses have the same text exactly if they are the same. LocalAddr is that text of the controller's address, whatever the device has done since it was set up. ReadRSSI sends one Read RSSI command with the 16-bit handle of the connection event and returns the signed strength of a successful answer; for a failed, short or missing answer it returns 127 and an error. ConnectionHandle is the low byte of the handle.", "quantifier": "all histories of packets and calls, all addresses and handles, all answers of the controller", "why_tests_cant": "Every address, handle and answer after every history.", "anchors": ["linux/hci/conn.go: LocalAddr, RemoteAddr, ReadRSSI, ConnectionHandle", "linux/hci/gap.go: Addr", "linux/gatt/client.go: ReadRSSI, ConnectionHandle"]}
{"id": "C181", "title": "ConnectionHandle identifies the connection", "statement": "ConnectionHandle is the handle the controller gave the connection, and two open connections have different ones.", "quantifier": "all histories of packets and calls, all addresses and handles, all answers of the controller", "why_tests_cant": "Every address, handle and answer after every history.", "anchors": ["linux/hci/conn.go: LocalAddr, RemoteAddr, ReadRSSI, ConnectionHandle", "linux/hci/gap.go: Addr", "linux/gatt/client.go: ReadRSSI, ConnectionHandle"]}
{"id": "C182", "title": "The texts of error codes", "statement": "The text of an ATT error code below 0x11 is its name; application codes (0x80 to 0x9F) and reserved ones are shown with their number in hexadecimal; codes from 0xE0 on are called profile or service errors. Codes below 0xE0 have different texts. The text of a controller error code is its name, and different codes other than the reserved ones have different texts; a code without a name has the text of Unspecified Error.", "quantifier": "all error codes", "why_tests_cant": "All codes and all pairs of codes.", "anchors": ["error.go: ATTError.Error, errName", "linux/hci/error.go: ErrCommand.Error, errCmd"]}
{"id": "C183", "title": "Every ATT error code can be told from its text", "statement": "Different ATT error codes have different texts, and each code with a name has its name as text.", "quantifier": "all error codes", "why_tests_cant": "All codes and all pairs of codes.", "anchors": ["error.go: ATTError.Error, errName", "linux/hci/error.go: ErrCommand.Error, errCmd"]}
{"id": "C184", "title": "Advertising and scanning settle on the last call, under every schedule", "statement": "Whatever advertising, StopAdvertising, Scan, StopScanning and Dial calls run at the same time, and whatever connections come and go meanwhile: when the call that was last to say whether the device should advertise (scan) has returned success (HCI being open, and no command answered after its three-second time-out: C97), the last such command the controller accepted said just that, and this stays so until another call says otherwise. Only these calls say so, the host itself never does: after StopAdvertising (StopScanning) has returned success the device does not advertise (scan) until asked again, also if it was being enabled again because of a connection all the while. As long as no two advertising calls overlap, the payload on the air after the latest has returned success is its own, byte for byte (for calls other than AdvertiseRaw: if no command is refused or lost, C114). As long as a call has not returned a step is possible, its own or of the call holding the opcode it waits for; a call takes at most 23 steps.", "quantifier": "any number of calls at the same time, all schedules, all answers and losses of commands, all connections coming and going", "why_tests_cant": "Two calls and the goroutine enabling advertising again share one struct and race for the controller, over all interleavings.", "anchors": ["linux/hci/gap.go: SetAdvertisement, Advertise, StopAdvertising, Scan, StopScanning, Dial", "linux/hci/hci.go: handleLEConnectionComplete, handleDisconnectionComplete, cleanupConnectionHandle, send", "linux/hci/params.go", "linux/device.go: AdvertiseRaw"]}
{"id": "C185", "title": "Calls at the same time do not mix", "statement": "The payload on the air is at every time that of one of the advertising calls, and a Dial asks the controller for the address it was given.", "quantifier": "any number of calls at the same time, all schedules, all answers and losses of commands, all connections coming and going", "why_tests_cant": "Two calls and the goroutine enabling advertising again share one struct and race for the controller, over all interleavings.", "anchors": ["linux/hci/gap.go: SetAdvertisement, Advertise, StopAdvertising, Scan, StopScanning, Dial", "linux/hci/hci.go: handleLEConnectionComplete, handleDisconnectionComplete, cleanupConnectionHandle, send", "linux/hci/params.go", "linux/device.go: AdvertiseRaw"]}
{"id": "C186", "title": "Reports handled while Scan is called", "statement": "While reports are handled, Scan may be called at any time, by any number of goroutines. For each report at most one advertisement is handed over: the one in the report, or, for a scan response, an earlier advertisement from the same address with that scan response. An advertisement changes only by scan responses from its own address. A report takes a bounded number of steps (at most 1300) and never leaves the event loop stuck. The event loop crashes on the history only while it handles a scan response, and only if Scan replaced the history meanwhile. A report during which no Scan is at work is handled exactly as if there were no other goroutine, and a Scan between two reports empties the history.", "quantifier": "all report sequences, any number of calls of Scan, all interleavings of their assignments with the reads and writes of the event loop", "why_tests_cant": "A race between two goroutines: every interleaving of single reads and writes.", "anchors": ["linux/hci/hci.go: handleLEAdvertisingReport", "linux/hci/gap.go: Scan", "linux/hci/adv.go: setScanResponse"]}
{"id": "C187", "title": "A call of Scan never crashes the process", "statement": "Scan may be called again at any time, also while the reports of an earlier scan still arrive, without crashing the process.", "quantifier": "all report sequences, any number of calls of Scan, all interleavings of their assignments with the reads and writes of the event loop", "why_tests_cant": "A race between two goroutines: every interleaving of single reads and writes.", "anchors": ["linux/hci/hci.go: handleLEAdvertisingReport", "linux/hci/gap.go: Scan", "linux/hci/adv.go: setScanResponse"]}
{"id": "C188", "title": "An advertisement handed over does not change", "statement": "An advertisement does not change any more once it has been handed to the handler.", "quantifier": "all report sequences, any number of calls of Scan, all interleavings of their assignments with the reads and writes of the event loop", "why_tests_cant": "A race between two goroutines: every interleaving of single reads and writes.", "anchors": ["linux/hci/hci.go: handleLEAdvertisingReport", "linux/hci/gap.go: Scan", "linux/hci/adv.go: setScanResponse"]}
{"id": "C189", "title": "Writes by several goroutines arrive whole", "statement": "Any number of goroutines may write at the same time, on any connections (characteristic and descriptor operations, notifications, signalling, pairing), while connections come and go and buffers run short. As long as the MTU of a connection is not made smaller while a Write on it is being checked: the packets of a call are a contiguous part of what reaches the controller, with its connection's handle; they are the pieces of its PDU in order, each as large as a controller buffer except the last, the first marked start and the others continuing, and all of them are there once the call has returned without an error. A call that starts after another has returned has all its packets after it. When all calls on a connection have returned without an error, its peer recombines exactly their PDUs, each once. After a connection has been declared closed at most one more packet is written for it. Write never crashes. A call takes a number of steps bounded by the length of what it sends; as long as it has not returned it can go on, or the goroutine it waits for can, unless all buffers are with the controller. Every buffer is at every time free or with exactly one connection.", "quantifier": "any number of calls on any number of connections, all interleavings, all buffer counts and sizes, all completions and failures of the transport", "why_tests_cant": "Goroutines share a pool of buffers, its lock and the transport: every interleaving.", "anchors": ["linux/hci/conn.go: Write, writePDU, SetTxMTU", "linux/hci/buffer.go: Get, Put, PutAll, LockPool, UnlockPool", "linux/hci/hci.go: cleanupConnectionHandle, handleNumberOfCompletedPackets", "linux/hci/signal.go: Signal", "linux/hci/smp/transport.go"]}
{"id": "C190", "title": "A changing MTU does not corrupt or crash a Write", "statement": "A Write that returns without an error has sent its value as one PDU, and Write never crashes, also when the MTU is changed while it runs.", "quantifier": "any number of calls on any number of connections, all interleavings, all buffer counts and sizes, all completions and failures of the transport", "why_tests_cant": "Goroutines share a pool of buffers, its lock and the transport: every interleaving.", "anchors": ["linux/hci/conn.go: Write, writePDU, SetTxMTU", "linux/hci/buffer.go: Get, Put, PutAll, LockPool, UnlockPool", "linux/hci/hci.go: cleanupConnectionHandle, handleNumberOfCompletedPackets", "linux/hci/signal.go: Signal", "linux/hci/smp/transport.go"]}
{"id": "C191", "title": "Signaling calls at the same time", "statement": "Any number of calls of OpenLECreditBasedConnection and of credit returns may run at the same time on one connection, whatever the peer sends. The event loop never waits for one of them. Every call ends: a step is possible until it has returned, waiting for an answer being given up, and it takes few steps. A call that succeeds has sent its request, and the peer has sent a response granting just the channel returned. No response makes two calls succeed. The channels of different calls have different local identifiers of 64 to 65535, and each channel there is belongs to the call that opened it. If requests are prepared one at a time (waiting for the answers may overlap), the response has the identifier of the call's own request, and no request has the identifier 0.", "quantifier": "any number of calls, all interleavings of their accesses to the shared identifier and of the commands of the peer, all payloads, timeouts, failing writes and closings of channels", "why_tests_cant": "Goroutines race for an identifier, a table and the transport: every interleaving.", "anchors": ["linux/hci/signal.go: Signal, handleSignal", "linux/hci/coc.go: Open, NextSourceCID, addChannel, CloseChannel"]}
{"id": "C192", "title": "Opening channels at the same time does not mix", "statement": "Calls of OpenLECreditBasedConnection at the same time each get the response to their own request, whose identifier is never 0.", "quantifier": "any number of calls, all interleavings of their accesses to the shared identifier and of the commands of the peer, all payloads, timeouts, failing writes and closings of channels", "why_tests_cant": "Goroutines race for an identifier, a table and the transport: every interleaving.", "anchors": ["linux/hci/signal.go: Signal, handleSignal", "linux/hci/coc.go: Open, NextSourceCID, addChannel, CloseChannel"]}
