import json
P=[]
def p(title, statement, quant, why, anchors):
    P.append(dict(id="C%02d"%(len(P)+1), title=title, statement=statement, quantifier=quant, why_tests_cant=why, anchors=anchors))

p("UUID text round trip",
  "For every 16-bit or 128-bit UUID, parsing its printed form gives back the same UUID; printing any UUID that Parse accepts and parsing again changes nothing; Parse ignores '-' characters and hex digit case, and it accepts a string exactly when, with the dashes removed, it is an even-length hex string of 2 or 16 bytes. UUID16(n) is the little-endian form of n.",
  "all byte strings used as UUIDs, all strings given to Parse",
  "The set of strings and of 128-bit values is far too large to enumerate; a unit test checks a few literals.",
  ["uuid.go: UUID16, Parse, MustParse, lenErr, UUID.String, Reverse"])
p("UUID equality and filter membership",
  "Equal holds exactly for the same byte sequences; Contains(list, u) is true exactly when some element of the list equals u (so never for an empty or nil list); Reverse is an involution that preserves length and the multiset of bytes.",
  "all UUIDs and all lists of UUIDs",
  "Quantifies over all lists and all values.",
  ["uuid.go: UUID.Equal, Contains, Reverse", "sliceops/swap.go: SwapBuf"])
p("Advertising packet builder never overflows and is atomic on failure",
  "Starting from any packet of at most 31 bytes, appending any field leaves the packet at most 31 bytes; when the field is reported not to fit the bytes of the packet are unchanged; when it succeeds the packet is the old bytes followed by the well-formed length/type/value record of that field.",
  "all packets, all field kinds and values, all sequences of appends",
  "The boundary depends on every combination of accumulated length and field length.",
  ["linux/adv/packet.go: append, Append, Flags, ShortName, CompleteName, ManufacturerData, AllUUID, SomeUUID, ServiceData16, IBeaconData, IBeacon, Raw"])
p("Advertising data decoder never crashes on radio input",
  "Decoding any advertising/scan-response byte string either returns a field map or an error; it never panics, whatever a remote device transmits.",
  "all byte strings of any length",
  "Input is attacker controlled and unbounded in structure; fuzzing only samples it.",
  ["parser/parser.go: Parse, getArray, writeOrAppendBytes", "linux/adv/packet.go: NewRawPacket"])
p("Advertising data build/parse round trip",
  "If a packet is the concatenation of well-formed records, decoding it succeeds and yields exactly, per field type, the values of those records in order (UUID lists split into their elements, byte fields kept verbatim); fields built with the packet builder are read back by the decoder.",
  "all sequences of well-formed records",
  "Needs induction over the record sequence.",
  ["parser/parser.go: Parse", "linux/adv/packet.go: NewPacket, fields, NewRawPacket"])
p("Advertising decoder: malformed tail does not disturb earlier fields",
  "When the data consists of well-formed records followed by a malformed remainder (zero length, or a length that runs past the end), the decoder reports an error and the returned fields are exactly those of the well-formed prefix; a single trailing byte is ignored.",
  "all record sequences and all malformed tails",
  "All ways of truncating or corrupting a packet.",
  ["parser/parser.go: Parse"])
p("LE advertising report decoding",
  "For every byte string delivered as an LE advertising report, field access either returns exactly the bytes at the offsets fixed by the Bluetooth event layout or an error, and never reads outside the event; a report encoded by the layout is decoded to the same fields; an advertisement is reported connectable exactly for event types 0 and 1; the printed address is the six address octets most significant first.",
  "all byte strings, all report contents",
  "Out-of-bounds behaviour depends on length bytes inside the input.",
  ["linux/hci/evt/evt_werr.go", "linux/hci/adv.go", "linux/hci/adv_werr.go"])
p("Scan responses are merged only with an advertisement of the same device",
  "A scan response handed to the advertisement handler is attached to a previously received advertisement with the same address; it is never attached to one with a different address, and it is attached to the most recent one still remembered.",
  "all sequences of advertising reports",
  "History dependent; the ring buffer wraps.",
  ["linux/hci/hci.go: handleLEAdvertisingReport", "linux/hci/adv.go: setScanResponse, ScanResponse"])
p("HCI UART framing is independent of read chunking",
  "If the byte stream of the serial link is a concatenation of well-formed HCI event and ACL packets, then for every way the stream is cut into reads (without inter-byte timeout) exactly those packets are delivered, in order, with none lost, split, or merged; bytes before a packet indicator are skipped.",
  "all packet sequences and all chunkings of their bytes",
  "Exponentially many chunkings.",
  ["linux/hci/h4/frame.go: Assemble, waitStart, frame, reset"])
p("GATT database handle assignment",
  "For every list of services, the attribute table assigns consecutive handles starting at the base handle, one attribute per service declaration, characteristic declaration, characteristic value and descriptor in declaration order; looking up a handle returns the attribute holding that handle and fails exactly for handles outside the table; a characteristic's value handle is its declaration handle + 1; a service's group end covers exactly its own attributes, the last service ending at 0xFFFF.",
  "all service/characteristic/descriptor trees that fit in the handle space",
  "Unbounded tree shapes.",
  ["linux/att/db.go: NewDB, genSvcAttr, genCharAttr, idx, at, subrange", "linux/gatt/server.go"])
p("Adding services preserves the existing database layout",
  "Publishing an additional service leaves the attributes of the services already published unchanged in number and kind (each notifying characteristic has exactly one client configuration descriptor).",
  "all histories of service additions",
  "The defect only shows after repeated rebuilds.",
  ["linux/gatt/server.go: AddService, SetServices", "linux/att/db.go: NewDB, genCharAttr, newCCCD"])
p("ATT server responses never exceed the negotiated MTU",
  "Every response or error PDU the server sends for any request is at most as long as the current ATT MTU.",
  "all databases, all requests, all MTUs >= 23, all handler behaviours",
  "Depends on every combination of value sizes, handles and MTU.",
  ["linux/att/server.go: handleRequest and handlers", "handler.go: ResponseWriter"])
p("ATT server never crashes on a remote PDU",
  "Whatever bytes a connected client sends, the server handles them without a Go runtime panic.",
  "all PDUs, all databases, all connection states",
  "Remote input is arbitrary.",
  ["linux/att/server.go: handleRequest and all handlers"])
p("ATT server: exactly one answer per request, with the right error data",
  "For every request PDU the server sends exactly one PDU: either the response opcode that belongs to the request or an error response carrying the request's opcode, the handle concerned and an error code; write commands and confirmations are never answered.",
  "all request opcodes and contents, all databases",
  "All inputs.",
  ["linux/att/server.go: handleRequest, handlers, newErrorResponse"])
p("Find Information semantics",
  "For start <= end the response lists, in handle order, the handle/type pairs of the maximal run of attributes from the first one at or above start that are <= end, have the same UUID size and fit in the MTU; if there is none, Attribute Not Found; an invalid range is rejected with Invalid Handle.",
  "all databases, ranges and MTUs", "All inputs.",
  ["linux/att/server.go: handleFindInformationRequest"])
p("Read By Type semantics",
  "For a valid range the response lists, in handle order, handle/value entries of attributes in the range whose type equals the requested type, all entries of equal length, as many as fit; if there is none, Attribute Not Found.",
  "all databases, ranges, types and MTUs", "All inputs.",
  ["linux/att/server.go: handleReadByTypeRequest"])
p("Read By Group Type semantics",
  "For a valid range and the group type Primary Service the response lists, in handle order, (start, group end, value) of the services declared in the range, equal length, as many as fit; other group types are rejected with Unsupported Group Type.",
  "all databases, ranges, types and MTUs", "All inputs.",
  ["linux/att/server.go: handleReadByGroupRequest"])
p("Find By Type Value semantics",
  "The response lists exactly, in handle order, the (handle, group end) pairs of attributes in the range with the given 16-bit type and value, as many as fit; none gives Attribute Not Found.",
  "all databases, ranges, types, values and MTUs", "All inputs.",
  ["linux/att/server.go: handleFindByTypeValueRequest"])
p("Read and Read Blob return the attribute value from the offset",
  "Reading a handle returns the attribute's value truncated to MTU-1; Read Blob returns the value from the requested offset on, truncated to MTU-1; nonexistent handles give Invalid Handle, unreadable ones an error.",
  "all databases, handles, offsets, values and MTUs", "All value lengths and offsets.",
  ["linux/att/server.go: handleReadRequest, handleReadBlobRequest", "handler.go: ResponseWriter.Write"])
p("Writes reach exactly the addressed attribute's handler",
  "A Write Request or Write Command to a writable attribute calls that attribute's write handler exactly once with exactly the written bytes, and no other handler; a request to a missing or unwritable attribute calls none and is answered with an error.",
  "all databases, handles, values", "All inputs.",
  ["linux/att/server.go: handleWriteRequest, handleWriteCommand, handleATT"])
p("Queued (long) writes deliver the queued value",
  "After a sequence of Prepare Write requests that succeeded, Execute Write with flag 1 delivers to each prepared attribute the value assembled from its parts by offset, and with flag 0 delivers nothing; afterwards the queue is empty.",
  "all sequences of prepare and execute requests", "History dependent.",
  ["linux/att/server.go: handlePrepareWriteRequest, handleExecuteWriteRequest"])
p("Client characteristic configuration is per connection and faithful",
  "Reading a client characteristic configuration descriptor returns the value last successfully written on that connection (0 initially); a notifier is running for a characteristic exactly when its notify bit is set, likewise for indications; starting and stopping alternate.",
  "all sequences of descriptor writes and reads over all characteristics", "History dependent.",
  ["linux/att/db.go: newCCCD", "linux/gatt/server.go", "handler.go: Notifier"])
p("Server MTU exchange",
  "The server rejects client MTUs below 23; otherwise it answers with its own receive MTU and from the next PDU on uses as transmit limit min(client MTU, own limit); before any exchange it is the default.",
  "all client MTU values and all exchange histories", "All values, history dependent.",
  ["linux/att/server.go: handleExchangeMTURequest"])
p("Notifications and indications carry the prefix of the data that fits",
  "A notification or indication PDU for a handle is opcode, handle, and the longest prefix of the data fitting the MTU; it never exceeds the MTU; at most one indication is outstanding before its confirmation.",
  "all data, handles, MTUs, interleavings of confirmations", "Schedule dependent.",
  ["linux/att/server.go: notify, indicate, Loop"])
p("ATT client never returns unvalidated response data",
  "Each client operation returns success only for a response of the matching opcode and of valid length for that opcode; an ATT error response is returned as that error; anything else is an error. The request put on the wire is exactly the encoding of the arguments.",
  "all arguments, all peer responses", "Peer is arbitrary.",
  ["linux/att/client.go: all operations"])
p("ATT client never crashes on a peer PDU",
  "Whatever bytes the peer sends in response, the client operations do not panic.",
  "all responses", "Peer is arbitrary.",
  ["linux/att/client.go", "linux/gatt/client.go"])
p("ATT client transactions are sequential and responses are matched to their own request",
  "At most one request is outstanding at any time, and the response returned by a call was received after that call's request was sent and before any later request.",
  "all schedules of concurrent callers, responses, timeouts", "Schedule dependent.",
  ["linux/att/client.go: sendReq, sendCmd, Loop"])
p("Every indication is confirmed exactly once and notifications stay in order",
  "For each indication received the client sends exactly one confirmation, and none otherwise; notifications are handed to the subscriber in arrival order, each at most once, and are dropped only when the queue is full.",
  "all PDU sequences and consumer schedules", "Schedule dependent.",
  ["linux/att/client.go: Loop, asyncReqLoop"])
p("GATT discovery finds exactly the peer's services",
  "Against a conforming server, DiscoverServices returns every primary service of the peer exactly once with its correct handle range (or just those matching the filter), and terminates.",
  "all peer databases, all response batchings", "Needs induction over the peer's database and batch sizes.",
  ["linux/gatt/client.go: DiscoverServices, DiscoverCharacteristics, DiscoverDescriptors"])
p("Long read returns the whole value",
  "Against a conforming server ReadLongCharacteristic returns exactly the attribute's value, for all value lengths and MTUs, and terminates.",
  "all value lengths and MTUs", "Boundary at multiples of MTU-1; unbounded iteration.",
  ["linux/gatt/client.go: ReadLongCharacteristic"])
p("Client subscription state",
  "After any sequence of subscribe/unsubscribe calls the configuration value written to the peer has the notify (indicate) bit set exactly when a notification (indication) handler is registered for that characteristic; an incoming notification calls exactly the handler registered for its value handle.",
  "all sequences of subscribe, unsubscribe, clear and incoming notifications; all write outcomes", "History dependent.",
  ["linux/gatt/client.go: Subscribe, Unsubscribe, setHandlers, ClearSubscriptions, HandleNotification"])
p("L2CAP fragmentation and recombination are inverse",
  "Any PDU written on a connection is sent as fragments of at most the controller's buffer size, the first flagged start and the rest continuing, whose payloads concatenate to the length/channel header plus the PDU; recombining the fragments of a PDU sequence yields the same PDUs in order; a write larger than the MTU is rejected without sending anything.",
  "all payloads, buffer sizes, MTUs and PDU sequences", "All fragment boundaries.",
  ["linux/hci/conn.go: Write, writePDU, Read, recombine"])
p("Controller buffer accounting",
  "Over any interleaving of sends, completed-packet events and disconnections, free buffers plus buffers held by connections is constant; a connection never sends without a free buffer; after disconnection all its buffers are free again.",
  "all operation sequences over any number of connections", "History and schedule dependent.",
  ["linux/hci/buffer.go: Pool, Client", "linux/hci/hci.go: handleNumberOfCompletedPackets, cleanupConnectionHandle"])
p("L2CAP connection-oriented channel identifiers are unique",
  "Dynamic channel identifiers handed out on a connection are within 0x0040..0xFFFF and never repeated; when exhausted, opening fails instead of reusing one.",
  "all numbers of open operations", "65472 allocations before the boundary.",
  ["linux/hci/coc.go: NextSourceCID"])
p("L2CAP CoC credit flow control",
  "The number of frames sent on a channel never exceeds the credits granted by the peer, every frame is at most the peer's MPS, and credit counters never wrap.",
  "all sequences of sends and credit grants", "History dependent.",
  ["linux/hci/coc.go: Send, IncrementCredits, DecrementCredits, handlers"])
p("L2CAP CoC SDU transfer",
  "An SDU sent on a channel and carried by conforming frames is delivered to the receiving subscriber exactly as sent, for any SDU size up to the MTU.",
  "all SDUs, MPS and MTU values", "All segment counts.",
  ["linux/hci/coc.go"])
p("L2CAP signaling encoding",
  "Every signaling PDU sent is code, identifier, length of payload, payload; identifiers are never 0 and successive ones differ; decoding the encoding of each signaling structure gives the structure back.",
  "all signaling PDUs and identifier histories", "Wrap-around of identifiers.",
  ["linux/hci/signal.go", "linux/hci/signal_gen.go"])
p("HCI command encoding",
  "Every HCI command is sent as indicator, opcode (little endian), parameter length, and exactly that many parameter bytes, which are the little-endian encoding of the command's fields in specification order; decoding yields the fields back.",
  "all commands and parameter values", "Dozens of structures times all values.",
  ["linux/hci/cmd/cmd_gen.go", "linux/hci/cmd/cmd.go", "linux/hci/hci.go: send"])
p("HCI commands are answered by their own completion",
  "At most one command per opcode is outstanding; a command-complete or command-status event is delivered to the sender of that opcode and to nobody else; commands in flight never exceed the controller's allowance.",
  "all schedules of senders and events", "Schedule dependent.",
  ["linux/hci/hci.go: send, handleCommandComplete, handleCommandStatus, setAllowedCommands"])
p("Advertised payload contains what was asked, or an error/omission rule applies",
  "AdvertiseNameAndServices puts flags and all service UUIDs that fit in the advertising data, marks the list complete exactly when all fit, puts the name in the advertising data if it fits and otherwise in the scan response; both payloads are at most 31 bytes and well formed.",
  "all names and UUID lists", "All length combinations.",
  ["linux/hci/gap.go: AdvertiseNameAndServices"])
p("Connection and scan parameter validation",
  "Parameters are accepted exactly when each lies in its range of the Core Specification, min <= max (window <= interval), and the supervision timeout exceeds (1+latency)*maxInterval*2.",
  "all parameter values", "Interplay of several ranges over 16-bit values.",
  ["linux/hci/params.go"])
p("SMP pairing method selection",
  "The association model chosen from both sides' IO capabilities, OOB and MITM flags is the one of the Core Specification table; the choice is a function of the exchanged requests only.",
  "all capability/flag combinations", "Full table incl. invalid encodings.",
  ["linux/hci/smp/handler.go / context.go: determinePairingType"])
p("SMP confirm and check values authenticate the peer",
  "A pairing proceeds past confirm/random exchange only if the received confirm value equals the function of the received random, public keys and passkey bits; a Secure Connections bond is stored only when the received DHKey check equals the value derived from the shared secret.",
  "all peer message sequences, over abstract cryptographic functions", "Adversarial message sequences.",
  ["linux/hci/smp/handler.go", "linux/hci/smp/context.go", "linux/hci/smp/crypto.go"])
p("A bond is stored only as the result of a completed pairing",
  "Key material received from the peer is stored as a bond only after a pairing that this device took part in has completed.",
  "all peer message sequences", "Adversarial message sequences.",
  ["linux/hci/smp/handler.go: smpOnEncryptionInformation, smpOnMasterIdentification"])
p("SMP message handling never crashes or wedges",
  "No SMP message sequence from the peer makes the process panic or blocks the connection's receive loop forever.",
  "all peer message sequences", "Adversarial message sequences.",
  ["linux/hci/smp/manager.go: Handle", "linux/hci/smp/handler.go"])
p("Bond store behaves as a map",
  "After any sequence of saves and deletes, Find(addr) returns the last saved bond for that address, Exists agrees with Find, other addresses are untouched, and the data survives a restart; keys are returned byte-identical.",
  "all operation histories, all addresses and keys", "History dependent.",
  ["linux/hci/bond/manager.go"])
p("Bond store survives a crash during save",
  "If the process dies at any point of a save, afterwards either the old or the new set of bonds is found.",
  "all crash points", "Crash points cannot be enumerated by unit tests.",
  ["linux/hci/bond/manager.go: storeBonds"])
p("GATT profile cache behaves as a map",
  "Load(addr) returns the profile last stored for addr, Store without replace keeps an existing entry and reports an error, Clear removes everything; other addresses are untouched.",
  "all operation histories", "History dependent.",
  ["cache/cache.go"])
p("Characteristic value and handler setup",
  "A characteristic never has both a static value and a read handler: the conflicting call panics; properties advertised are exactly those of the handlers installed; a duplicate characteristic or descriptor cannot be added through the checked API.",
  "all sequences of configuration calls", "History dependent.",
  ["profile.go"])
p("Device address text",
  "An address's text is its lower-cased input; its bytes are the hex decoding of the text without colons; equal addresses up to case compare equal.",
  "all address strings", "All strings.",
  ["addr.go"])
p("Profile lookups return the first match",
  "FindService, FindCharacteristic and FindDescriptor return the first element with the given UUID in declaration order, and nil exactly when the profile has none.",
  "all profiles and UUIDs", "All trees.",
  ["profile.go: FindService, FindCharacteristic, FindDescriptor"])
p("L2CAP signaling requests are answered",
  "Every signaling packet of the peer, well-formed or not, is survived; a well-formed packet is handled command by command, each request is answered once with its identifier (a parameter update is passed on unchanged and accepted as central, rejected as peripheral; unknown commands are rejected), and an answer reaches the call that asked.",
  "all packets and interleavings with calls", "Adversarial input and interleavings.",
  ["linux/hci/signal.go: handleSignal, Signal, handleConnectionParameterUpdateRequest, handleDisconnectRequest"])
p("GATT profile cache after a crash",
  "If the process dies at any point of Store, afterwards Load returns the old profile, the new one or an error, never another, and the cache can still be written.",
  "all crash points, cache contents and profiles", "Crash points cannot be enumerated by unit tests.",
  ["cache/cache.go: Store, storeCache, loadExisting, Clear"])
p("Discovery through the cache",
  "DiscoverAndCacheProfile without force returns the cached profile without asking the peer if there is one, and otherwise the discovered profile, which the next call returns; with force it always asks the peer; it works without a cache too.",
  "all cache contents, addresses, discovery results", "History dependent.",
  ["linux/gatt/client.go: DiscoverAndCacheProfile", "cache/cache.go"])
p("Received data reaches the right connection in order",
  "Every ACL packet with a registered connection handle is handed to the connection of that handle, unchanged, once and in order of arrival; a connection receives no packet of another handle, and packets with unknown handles change nothing.",
  "all packet sequences and interleavings with connects, disconnects, closes", "Interleavings of the event loop with receive loops and calls.",
  ["linux/hci/hci.go: handlePkt, handleACL", "linux/hci/conn.go: newConn, recombine"])
p("Connections mirror the controller's events and are handed out once",
  "Each successful LE Connection Complete event makes one connection with the event's handle, role and address (shown by RemoteAddr); Dial returns only connections in which this host is central, Accept only others, and no connection is returned twice.",
  "all event sequences and interleavings of Dial, Accept, Close", "Interleavings.",
  ["linux/hci/hci.go: handleLEConnectionComplete", "linux/hci/gap.go: Dial, Accept", "linux/hci/conn.go: RemoteAddr"])
p("No channel misuse in the HCI host",
  "No interleaving of packets, Close, Dial, Accept, receive failures, time-outs and shutdown makes the host close a channel twice or send on a closed one; well-formed data and connection events are always survived.",
  "all interleavings", "Races cannot be enumerated by unit tests.",
  ["linux/hci/hci.go: cleanupConnectionHandle, cleanup, handleACL", "linux/hci/conn.go: Close"])
p("No controller packet crashes the process",
  "Whatever bytes the controller sends, and whenever calls are cancelled, the process does not panic.",
  "all packets and interleavings", "Adversarial input and races.",
  ["linux/hci/hci.go: handlePkt, handleEvt, handleLEMeta", "linux/hci/gap.go: cancelDial"])
p("Life of a connection",
  "A connection is registered from its event until it is removed, and never again afterwards; it is removed only by a disconnection event of its handle, the end of its receive loop, Close or shutdown; Disconnected fires only for removed connections and for all of them (except as in the next property); after Close has returned or the event loop has ended it is removed.",
  "all executions in which the controller does not reuse a registered handle", "History and interleaving dependent.",
  ["linux/hci/hci.go: handleDisconnectionComplete, cleanupConnectionHandle, cleanup", "linux/hci/conn.go: Close, Disconnected"])
p("Disconnected fires when HCI is closed",
  "Once a connection is gone, also because HCI was closed, its Disconnected channel is closed.",
  "all executions", "History dependent.",
  ["linux/hci/hci.go: cleanupConnectionHandle"])
p("Close affects only its own connection",
  "Calling Close on a connection never ends another connection.",
  "all interleavings with handle reuse", "Needs a particular race.",
  ["linux/hci/conn.go: Close", "linux/hci/hci.go: cleanupConnectionHandle"])
p("The event loop always gets to the next packet",
  "No behaviour of a peer, and no absence of a call of Accept, stops the handling of further controller packets for good.",
  "all executions", "Deadlocks depend on interleavings.",
  ["linux/hci/hci.go: handleACL, handleLEConnectionComplete", "linux/hci/conn.go: newConn"])
p("Dial returns the dialled device",
  "A connection returned by Dial is to the address that was dialled.",
  "all addresses and interleavings with cancellation", "Races with cancellation.",
  ["linux/hci/gap.go: Dial, cancelDial", "linux/hci/hci.go: handleLEConnectionComplete"])

# ---- statements made precise after the proofs: what the code guarantees; what it does not is a property of its own (C64 ff.)
def amend(i, st): 
    x=[q for q in P if q["id"]==i][0]; x["statement"]=st
amend("C03","Starting from any packet of at most 31 bytes, appending any field leaves the packet at most 31 bytes; when a field other than service data (C64) is reported not to fit, the bytes of the packet are unchanged; when it succeeds the packet is the old bytes followed by the well-formed length/type/value record of that field.")
amend("C05","If a packet is the concatenation of well-formed records, decoding it succeeds and yields exactly, per field type, the values of those records in order (UUID lists split into their elements, byte fields kept verbatim); fields built with the packet builder are read back by the decoder (for the accessor of 32-bit service data see C65).")
amend("C11","The table a server publishes is the GAP and GATT services followed by the services it was given, whatever was published before; adding a service leaves every attribute of the services already published as it was (only the end of the formerly last group is corrected), provided none of their characteristics notifies or indicates (C70).")
amend("C12","Every response or error PDU the server sends for any request other than Prepare Write is at most as long as the MTU the client announced (23 before that); the answer to Prepare Write is as long as the request. For a client announcing more than the server's own limit see C72.")
amend("C14","For every request PDU the server sends exactly one PDU: either the response opcode that belongs to the request or an error response carrying the request's opcode, the handle concerned and an error code; Write Command and confirmations are never answered (other commands: C73).")
amend("C17","A Read By Group Type request whose range starts at a published service is answered with (start, group end, UUID) of that service and the services directly following it, in handle order, of equal UUID length, as many as fit and lie in the range, but not beyond a service that has characteristics; a range without attributes gives Attribute Not Found, an invalid range Invalid Handle. Other ranges and group types: C74.")
amend("C18","When the attributes in the range that have the given type have static values, the response lists exactly, in handle order, the (handle, recorded group end) pairs of those with the given value, as many as fit; none gives Attribute Not Found. Handler-backed attributes and non-group attributes: C75.")
amend("C19","Reading a handle whose value is static and fits in MTU-1 bytes returns it. With a read handler, the handler is called exactly once, with the requested offset (0 for Read), and the answer is what it wrote, as far as it fits MTU-1 (a Write that does not fit is refused as a whole), or the error status it set. Nonexistent handles give Invalid Handle, unreadable ones Read Not Permitted. Static values: C76.")
amend("C20","A Write Request, or a Write Command with a non-empty value, to a writable attribute calls that attribute's write handler exactly once with exactly the written bytes, and no other handler; one to a missing or unwritable attribute calls none, and a request is then answered with an error. Empty commands: C77.")
amend("C21","After Prepare Write requests for one attribute with consecutive offsets from 0 (each echoed), Execute Write with flag 1 calls its write handler once with the concatenation, and with flag 0 delivers nothing; afterwards the queue is empty. Other offsets, several attributes: C78.")
amend("C22","Reading a client characteristic configuration descriptor returns the value last successfully written on that connection (0 initially). As long as the client only asks for what the characteristic supports (else C79), exactly one notifier runs per characteristic whose notify bit is set and none otherwise, likewise for indications, and all are closed at the end of the connection.")
amend("C23","The server rejects client MTUs below 23 with an error and no change; otherwise it answers with its own receive MTU 515 and from the next PDU on uses the client's MTU for responses, notifications and indications; before any exchange the limit is 23. Capping by the own limit: C80.")
amend("C24","A notification or indication PDU for a handle is opcode, handle, and the longest prefix of the data fitting the MTU; it never exceeds the MTU; at most one indication is outstanding before its confirmation or time-out. Lost confirmations: C81.")
amend("C25","Each client operation refuses bad arguments without sending; otherwise it puts exactly the encoding of its arguments on the wire (Prepare Write and Signed Write: C82), rejects unrelated PDUs with an error response, and returns success only for a response of the matching opcode and of valid length for that opcode (exceptions: C83); an ATT error response is returned as that error; anything else is an error.")
amend("C27","At most one request is outstanding at any time; the response a call returns belongs to its request's opcode, and no response is returned twice. If the peer only answers open requests and no call timed out (else C84), the response was received after that call's request and before any later request.")
amend("C28","For each indication received the client sends exactly one confirmation, and none otherwise; notifications are handed to the subscriber in arrival order, each at most once, and are dropped only when the queue is full. Progress under unsolicited responses: C85.")
amend("C29","Against a conforming server, a first discovery terminates and returns every primary service exactly once with its correct handle range, each service's characteristics and each characteristic's descriptors with their handles, and DiscoverProfile the whole profile; with a filter the matching services in order, at most as many as the filter has entries (all of them when the peer's UUIDs are distinct). Repeated and filtered discovery, last handle, hostile peers: C86-C88.")
amend("C30","Against a conforming server whose MTU is the one the client uses, ReadLongCharacteristic terminates and returns exactly the attribute's value, for all value lengths and MTUs. Differing MTUs: C89.")
amend("C31","After any history of subscribe, unsubscribe and clear calls in which no call failed, the configuration last written to the peer has the notify (indicate) bit set exactly when a notification (indication) handler is registered for that characteristic; a first subscription registers its handler, unsubscribing removes it, others are left alone; an incoming notification calls exactly the handler registered for its value handle. Failures, resubscription, malformed PDUs: C90.")
amend("C32","Any PDU written on a connection whose controller has buffers of at least one byte is sent as fragments of at most the controller's buffer size, the first flagged start and the rest continuing, whose payloads concatenate to the length/channel header plus the PDU; recombining the fragments of a PDU sequence yields the same PDUs in order; an incomplete PDU is not delivered; a write larger than the MTU is rejected without sending anything. Hostile fragments: C91.")
amend("C33","Over any interleaving of sends, completed-packet events and disconnections, free buffers plus buffers held by connections is constant; a connection never sends without a free buffer; after disconnection all its buffers are free again. Progress, and packets still in the controller: C92.")
amend("C35","The number of frames sent on a peer's channel identifier never exceeds the credits the peer granted for it, every frame is at most the MPS announced for it, every received frame gives one credit back, and credit counters never wrap. Reopened channels: C93.")
amend("C37","Every signaling PDU sent is code, identifier, length of payload, payload; identifiers are never 0 and successive ones differ; decoding the encoding of each signaling structure other than Command Reject (C94) gives the structure back.")
amend("C38","Every command of the API other than the three of C95 is sent as indicator, opcode (little endian), parameter length, and exactly that many parameter bytes, which are the little-endian encoding of the command's fields in specification order; every return parameter structure other than those of C95 is decoded to the specification's fields, failure statuses are reported and short replies rejected; a vendor command of up to 60 parameter bytes is sent as is (else C96).")
amend("C39","At most one command per opcode is outstanding; a returned result is that of one completion event for the call's own opcode handled during the call; an event is delivered to at most one call; with a well-behaved controller and no time-outs each command gets its own completion; the commands sent never exceed one plus the allowances granted by events; no call is stuck for ever. Exact flow control, late events, closing: C97.")
amend("C40","AdvertiseNameAndServices puts flags and the longest prefix of the service UUIDs that fits in the advertising data, the name behind them if it fits and otherwise in the scan response if it fits there; both payloads are at most 31 bytes and well formed, and exactly these bytes are sent to the controller. Tagging and errors: C98.")
amend("C41","Scan parameters are accepted exactly when each lies in its range of the Core Specification and window <= interval. Connection parameters are accepted exactly when each lies in its range, min <= max, and the timeout is at least a stated bound, which implies timeout >= (1+latency)*maxInterval*2 and coincides with it for latency 0. The exact bound of the specification: C99.")
amend("C42","On a Pairing Response with defined IO capabilities and equal OOB flags (or Secure Connections), the association model used is the one of the Core Specification table for both sides' IO capabilities, OOB and MITM flags; reserved IO capabilities give Just Works; the choice is a function of the exchanged requests only. Other OOB flags, Secure Connections without offer: C100.")
amend("C43","The cryptographic functions are those of the specification with the specified argument order; a pairing proceeds past confirm/random exchange only if the received confirm value equals the function of the received random, public keys and passkey bits; a Secure Connections bond is stored on a DHKey check only when it equals the value derived from the shared secret, and is the LTK of that agreement unless key distribution messages interfered (C44). What this does not give for passkeys: C101.")
amend("C46","After any sequence of saves and deletes, also from many goroutines and across restarts, Find(addr) returns the last saved bond for that address, other addresses are untouched, and keys are returned byte-identical, as long as no bond without a key is stored (C102).")
amend("C48","Load(addr) returns the profile last stored for addr, Store without replace keeps an existing entry and reports an error, Clear removes everything; other addresses are untouched; also under concurrent calls. Foreign file contents: C103.")
amend("C49","A characteristic or descriptor never has both a static value and a read handler: the conflicting call panics; properties advertised are exactly those of the handlers installed; a duplicate characteristic or descriptor cannot be added through the checked API, distinct ones can.")
amend("C52","A well-formed signaling packet within the MTU is survived and handled command by command, each command answered at most once, in order, with its identifier; a longer one is answered by one reject and otherwise ignored; a disconnection request closes nothing and is answered for the fixed channel only; a parameter update is passed on unchanged and accepted as central, rejected as peripheral; an unknown command with an identifier no call waits for is rejected; other commands are handed only to a call of Open that waits for this identifier. Malformed packets, channel requests, identifier collisions: C104.")
amend("C53","If the process dies at any point of Store, afterwards Load returns the old profile, the new one or an error, never another; Clear makes the cache usable again. Usability without Clear: C105.")
amend("C54","DiscoverAndCacheProfile without force returns the cached profile without asking the peer if there is one, and otherwise the discovered profile, which the next call returns; with force it always asks the peer; a failed discovery changes nothing. Without a cache: C106.")
def q(base, title, statement, quant=None):
    x=[y for y in P if y["id"]==base][0]
    p(title, statement, quant or x["quantifier"], x["why_tests_cant"], x["anchors"])
q("C03","A failed append of service data leaves the packet unchanged","When ServiceData16 is reported not to fit, the bytes of the packet are unchanged.")
q("C05","32-bit service data is accessible","Service data with a 32-bit UUID in a well-formed packet is returned by the ServiceData accessor.")
q("C07","Derived accessors of advertising reports agree with the data","SrData returns the attached scan response, and the transmit power in the map form equals TxPowerLevel.")
q("C08","Scan responses are matched by address type as well","A scan response is attached only to an advertisement with the same address and the same address type.")
q("C09","No packet is invented after a stalled transfer","Whatever the timing of the serial link, every packet delivered is one that the controller sent.")
q("C10","A database that does not fit the handle space is refused","Publishing services that need more handles than exist is reported and never assigns handle 0 or a handle twice.")
q("C11","Every notifying characteristic has exactly one configuration descriptor","However often services are added and whatever descriptors the application added itself, each notifying or indicating characteristic has exactly one client characteristic configuration descriptor, and handles do not move.")
q("C11","The service-changed handler given to the server is used","The indication handler given to the server constructor is the one in the published table, also after RemoveAllServices and SetServices.")
q("C12","No server PDU exceeds the MTU of the connection","Every PDU the server sends is at most min(MTU announced by the client, MTU announced by the server), also answers to Prepare Write.")
q("C14","Commands are never answered","No command PDU (command flag set) is answered.")
q("C17","Read By Group Type for arbitrary ranges and group types","Whatever the start of the range, exactly declared services are reported; group types other than Primary (and Secondary) Service are rejected with Unsupported Group Type.")
q("C18","Find By Type Value on any attribute","Attributes whose value comes from a handler do not make the request fail, and the reported group end of an attribute that is not a group is its own handle.")
q("C19","Read Blob of static values","Read Blob of a static value returns it from the requested offset; a static value longer than MTU-1 is truncated by Read.")
q("C20","Empty Write Commands are delivered","A Write Command with an empty value calls the write handler of a writable attribute once.")
q("C21","Queued writes honour offsets and attributes","Parts are placed at their offsets, and parts for several attributes are delivered to each of them.")
q("C22","No notifier without configuration","Whatever value a client writes, notifiers run exactly for the configuration bits it can read back, at most one per characteristic and kind.")
q("C23","The transmit limit is capped by the server's own limit","After an MTU exchange the transmit limit is min(client MTU, own limit).")
q("C24","A confirmation ends the wait of the indication it confirms","When the peer confirms an indication, the call sending it returns success, however soon the confirmation arrives.")
q("C25","Prepared and signed writes carry the value","A Prepare Write and a Signed Write put exactly their value (and, for the latter, the signature) on the wire, and no other memory content.")
q("C25","Malformed bodies are refused by the client","A Write Response with a body and a Find Information Response with an undefined format are errors.")
q("C27","A response is always to the caller's own request","Whatever the peer sends and whenever, the response returned by a call was received after that call's request was sent and before any later request.")
q("C28","Unsolicited responses do not stop the client","A response nobody asked for does not delay indications and notifications.")
q("C29","Repeated discovery","Discovering again (force) yields the peer's profile once more, not duplicates; a failed discovery is not reported as an empty profile by the next one.")
q("C29","Filtered discovery and the last handle","With a filter every matching service is found even if the peer repeats a UUID; a characteristic or descriptor at handle 0xFFFF ends the discovery normally.")
q("C29","Discovery survives a hostile peer","Whatever the peer answers, discovery terminates without a panic.")
q("C30","Long reads with differing MTUs","The whole value is read also when client and server announced different MTUs.")
q("C31","Subscription state after failures and repetition","A failed call changes only its own kind of subscription; subscribing again replaces the handler; an indication calls only an indication handler; no incoming PDU crashes the process.")
q("C32","Hostile fragments and controllers are survived","A short first fragment, a controller announcing zero-length buffers and an overlong frame neither crash, block nor deliver stale data.")
q("C33","Disconnection always frees buffers, and the controller is never overcommitted","After a disconnection the writer and the buffers are released in every schedule; the packets in the controller never exceed its buffers, also across Close.")
q("C35","Credits belong to one channel","A frame is sent on a channel only with a credit granted for that channel, also when the identifier was closed and opened again.")
q("C37","Command Reject is complete","A Command Reject carries its reason and data, and decodes to them.")
q("C38","Every command and reply of the API conforms","All commands of the API have the opcode and parameters of the specification, and all replies deliver their return parameters.")
q("C38","Vendor commands of every length","A vendor command with up to 252 parameter bytes is sent as is or refused, never altered, and never crashes the process.")
q("C39","Command flow control and completion in every schedule","A command is sent only within the controller's current allowance; a late completion is not taken for that of a later command; time-outs do not stop event handling; closing makes waiting calls fail; vendor commands are completed by ordinary completion events.")
q("C40","The UUID list is tagged correctly and errors are reported","The service list is marked complete exactly when all UUIDs are in it, and a controller error is returned to the caller.")
q("C41","The supervision timeout bound is exactly that of the specification","Connection parameters are accepted exactly when legal: the timeout must exceed (1+latency)*maxInterval*2.")
q("C42","Association model for every flag combination","The association model is the one of the specification also for one-sided OOB flags, and Secure Connections is used only if both sides offered it.")
q("C43","Passkey and comparison authenticate the peer","A pairing with passkey entry completes only with a peer that knows the passkey; a requested pairing asks for the passkey; numeric comparison asks the user; a pairing with out-of-band data completes only with a peer that has the data.")
q("C46","Bond store with incomplete entries","Exists agrees with Find; a bond without a key does not disturb concurrent lookups; no file content crashes the process.")
q("C48","No cache file content crashes the process","Whatever the cache file holds, calls return a profile or an error.")
q("C52","Every signaling packet is survived and every request answered","Any signaling packet is survived; a request to open a channel is answered; an answer reaches the call that asked and only an answer does.")
q("C53","The cache stays usable after a crash","After a crash in Store the cache can still be written and read.")
q("C54","Discovery without a cache","DiscoverAndCacheProfile works without a cache.")
p("Discovery against this library's own server finds exactly what was published",
  "When the client of this library is connected to a device running this library's server, DiscoverProfile returns exactly the services the device published: same UUIDs, characteristics, properties and descriptors in the same order, each with the handle at which the server keeps its value and configuration descriptor; whatever happened before on the connection and whatever the handlers do.",
  "all published service trees that fit the handle space (UUIDs of 2 or 16 bytes), all earlier histories of the connection, all handler behaviours",
  "Relates two programs over unbounded trees; a test tries a few trees.",
  ["linux/gatt/client.go: DiscoverProfile", "linux/att/client.go", "linux/att/server.go", "linux/att/db.go: NewDB"])
p("Reads and writes between two ends of this library reach the handlers",
  "Reading a discovered characteristic calls its read handler once with offset 0 and returns what the handler wrote as far as it fits the server's MTU, or the status it set; static values that fit are returned as they are; a write that fits the MTU calls the write handler once with exactly the value and returns its status; operations without handler fail with Read/Write Not Permitted and call nothing.",
  "all published service trees, characteristics, values, handler behaviours and earlier histories of the connection",
  "End-to-end over two programs, all values and all histories.",
  ["linux/gatt/client.go: ReadCharacteristic, WriteCharacteristic", "linux/att/client.go: Read, Write, WriteCommand", "linux/att/server.go: handleReadRequest, handleWriteRequest, handleWriteCommand"])
p("Subscriptions between two ends of this library",
  "Subscribing to a kind (notify or indicate) that a discovered characteristic offers succeeds at any time; unsubscribing and clearing succeed and remove the registration; the server runs exactly one notifier of a kind for a characteristic while the client has a handler of that kind registered, and none otherwise; what a running notifier sends is handed to that handler.",
  "all published service trees, all handler behaviours, all histories of a connection: MTU exchanges, discoveries, reads, writes of values, subscriptions, removals and incoming PDUs in any order",
  "The state is spread over both ends and must agree after every history.",
  ["linux/gatt/client.go: Subscribe, Unsubscribe, ClearSubscriptions, HandleNotification", "linux/att/db.go: newCCCD", "linux/att/server.go"])
p("Advertising calls put exactly the requested payload on the air, until stopped",
  "On a device that does not advertise, an advertising call whose payload fits succeeds with a controller that accepts it: exactly the requested advertising data and scan response are shown, with the advertising parameters given last; a payload that does not fit is refused and nothing changes. A call while advertising replaces the data and reports the controller's refusal. Nothing that no call asked for is ever shown. Advertising goes on through scanning, dialling, connections and disconnections until Stop; before the first call and after a successful Stop nothing is advertised until the next call.",
  "all options, all histories of calls, connections and disconnections, all names, UUID lists and data, all controllers that follow the specification (refusing or losing any command; the clauses about success: those that accept what is allowed)",
  "The state is shared with a controller that may refuse anything at any time; the claim is over all histories.",
  ["linux/hci/gap.go", "linux/device.go: Advertise*", "linux/hci/hci.go: handleLEConnectionComplete, cleanupConnectionHandle", "linux/hci/params.go"])
p("Set-up of the controller",
  "Init resets the controller whatever it was doing and succeeds exactly if the controller has more than one buffer for LE data (LE buffers if it has any, otherwise ACL buffers); the device address is the controller's; the buffer pool has one buffer less than the controller, each of the controller's size plus the headers; the events for connections, disconnections, advertising reports, connection updates, key requests and encryption changes are enabled; the configured advertising and scan parameters are set; nothing is advertised or scanned. With any controller Init returns and the pool is never larger than the controller's buffers.",
  "all controllers, all earlier states, all options",
  "Ranges over all controller identities and refusals.",
  ["linux/hci/hci.go: NewHCI, Init, init, Option", "linux/hci/params.go", "linux/hci/buffer.go: NewPool"])
p("Scanning and dialling reach the controller as asked",
  "Scan that succeeds leaves the controller scanning with duplicate filtering exactly if duplicates are not allowed, StopScanning that succeeds leaves it not scanning; neither changes advertising. Dial refuses an address that is not six bytes long without a command and otherwise asks for a connection to exactly that address and address type with the connection parameters given last.",
  "all histories, addresses, options and controllers that follow the specification",
  "Parameters persist over unbounded histories and are encoded through several layers.",
  ["linux/hci/gap.go: Scan, StopScanning, Dial", "linux/hci/params.go", "linux/hci/cmd/cmd_gen.go"])
q("C111","Set-up reports failures and enables every handled event","Init and NewHCI report a refused set-up command or a failed option, and every event with a handler is enabled in the controller.")
q("C110","A successful advertising call means advertising","An advertising call that returns success has the device advertising the requested payload, also when the controller refuses the data.")
q("C110","Advertising resumes when a connection ends","A device asked to advertise advertises again after a connection ends, also with a controller that cannot advertise while connected.")
p("Connect dials a matching device",
  "What Connect dials was reported by the controller during this call and passed the filter; when it dials, the controller has confirmed the end of the scan; it dials at most once. As soon as a matching report has been received it comes to dialling in every schedule, in a bounded number of steps of the program, unless the context's deadline passes, the controller refuses a scan command or does not answer; it fails only for these reasons. (Handlers run in their own goroutines, the default.)",
  "all schedules of caller, event loop, handler goroutines, contexts and controller; all filters; all reports, unbounded",
  "Concurrency of four kinds of threads and two contexts; a test sees a few schedules.",
  ["gatt.go: Connect, Scan, Dial", "linux/device.go: Scan", "linux/hci/hci.go: handleLEAdvertisingReport, sktProcessLoop", "linux/hci/gap.go: Scan, StopScanning, SetAdvHandler"])
p("Scan and Find hand over each matching report once",
  "The handler is called at most once for a report, only for reports that were received and pass the filter, and for all of them once the program has finished; Scan and Find return the error of their context after it has ended, with the scan confirmed stopped and no report left in the queue, in a bounded number of steps; Find's result consists of matching reports, none twice.",
  "all schedules, all filters and reports, both handler modes",
  "The handlers are concurrent with the caller and the event loop.",
  ["gatt.go: Scan, Find", "linux/device.go: Scan", "linux/hci/hci.go: handleLEAdvertisingReport"])
q("C116","Connect ends when its context ends","Connect returns when its context is cancelled or its deadline passes.")
q("C116","Connect works in both handler modes and leaves nothing behind","Connect works with synchronous handlers too, does not stop event handling and leaves no goroutine behind.")
q("C117","No handler call after Scan has returned, no report lost by Find","When Scan has returned the handler is not called any more; Find returns every matching report it was handed.")
p("Packets from the transport are handled in order, once, until the end",
  "The packets handled are at any time, in order and each exactly once, the first of those received, which over UART or TCP are what the framing makes of the bytes read; no empty or incomplete packet reaches a handler; when the program has no step left, either every packet received was handled, or the HCI has stopped. After Close, a transport failure or a failed command write the reading and processing goroutines end and the transport is closed, in a bounded number of steps. The error handler is called at most once by them, exactly once if the HCI stops without Close, and never after Close.",
  "all schedules of the three goroutines, all reads and failures of the transport, both kinds of transport, any moment of Close",
  "Three concurrent goroutines with bounded queues; losses and reorderings depend on the schedule.",
  ["linux/hci/hci.go: sktReadLoop, sktProcessLoop, cleanup, Close, close, dispatchError", "linux/hci/h4/h4.go: Read, Close, rxLoop", "linux/hci/h4/frame.go", "linux/hci/socket/socket.go: Read, Close"])
q("C121","The cause of the end is reported","When the HCI stops by itself the error handler and Error() give the cause.")
q("C121","No legal packet stops the HCI","A complete packet of any length allowed by the format is handled, or dropped, but does not end the HCI.")
q("C121","Nothing is left running","After the HCI has stopped none of its goroutines remains.")
p("StartEncryption and encryption events: the application is told what happened",
  "An Encryption Change event of a connection is passed on, with its status, an error exactly if the status is not 0 and whether encryption is on, to the channel of the last StartEncryption call for that connection that did not return at once (unless a call has failed since), and to nobody else: a waiting receiver gets it at once, otherwise it is kept if the channel has room. Nothing else is ever put into a channel, except that StartEncryption on a connection that is encrypted already returns at once without a command (nil, or ErrEncryptionAlreadyEnabled without a channel) and offers the last event seen. Values leave a channel in order, once each. Calls that wait return nil exactly as often as the controller accepted their command, and each can return. Other packets have no effect.",
  "all histories of connections, disconnections, packets, calls, PDUs and receive operations, any channel capacities, any schedule, any stored bonds",
  "Event loop, callers, receive loops and the goroutine of StartEncryption interleave; reports depend on the whole history.",
  ["linux/hci/conn.go: StartEncryption, handleEncryptionChanged, handleEncryptionKeyRefreshComplete", "linux/hci/hci.go: handleEncryptionChange, handleLEMeta"])
p("Keys and bonds belong to the peer of the connection",
  "A bond is stored only because of a message of the peer of a connection with security, and under that peer's address; it is deleted only by an encryption event with a failure status of a connection to that peer. An LE Start Encryption command names the handle of its connection; started by the application or by a Security Request it carries the key, diversifier and random number of the bond stored for that peer at that moment, or the short term key of a pairing on this very connection; the only other causes are a Pairing Random or DHKey Check message of that connection. With security enabled neither StartEncryption nor an encryption event crashes, whatever earlier pairings have stored.",
  "all histories over any number of connections, all messages, all stored bonds (keys of Secure Connections bonds at most 16 bytes)",
  "Isolation between connections over unbounded histories and a shared store.",
  ["linux/hci/conn.go: StartEncryption, encrypt, stkEncrypt, handleEncryptionChanged", "linux/hci/smp/manager.go: StartEncryption, DeleteBondInfo, Handle", "linux/hci/smp/transport.go: saveBondInfo"])
q("C126","Encryption cannot crash the program","No encryption event and no call of StartEncryption or Pair crashes, whether or not security was enabled.")
q("C125","A refreshed key is reported","Encryption Key Refresh Complete is reported to the application like Encryption Change, and no other event is taken for it.")
q("C125","A caller of StartEncryption learns the outcome","When StartEncryption has returned nil, the outcome of the encryption reaches its channel.")
q("C125","A failed encryption is not taken for an encrypted connection","After an event with a failure status StartEncryption tries again.")
p("Requests are served one at a time, in order and unmodified, under every schedule",
  "The requests the ATT server hands to the handlers are, in order and each exactly once, the first of those the connection delivered; each one's answer (if any) is written before the next is handled; answers and handler calls are those of a server that does one request after the other; the bytes a handler sees are those that arrived, until its answer is written, although a reading goroutine reads ahead (at most two requests).",
  "all service tables, all sequences of PDUs, all schedules of reader, handler and notifying goroutines, all failures of writes",
  "Two buffers are recycled between two goroutines; an error shows only in some schedules.",
  ["linux/att/server.go: Loop, handleRequest, notify, indicate, handleExchangeMTURequest", "linux/hci/conn.go: Read"])
p("The ATT server makes progress under every schedule",
  "Without new input the server comes to rest after a bounded number of steps. At rest, once the timers of pending indications have expired or none is pending, every request that was delivered has been served and its answer written, also those delivered just before the end of the connection; every call of Write on a notifier has returned exactly once. While an indication waits for its confirmation requests go on being served (as long as no MTU exchange is asked for).",
  "all service tables, PDU sequences and schedules; PDUs of 1 to 515 bytes; requests that do not crash their handler (C13)",
  "Freedom from deadlock over all interleavings.",
  ["linux/att/server.go: Loop, notify, indicate, handleExchangeMTURequest"])
p("The end of a connection ends its ATT server",
  "When the connection ends, the server closes it once and Loop returns once, in every schedule; then no notifier is left open (if the configuration descriptors were given supported values only). The goroutines add no crash of their own: without a request whose handling crashes there is none.",
  "all service tables, PDU sequences, calls and schedules",
  "The end may come at any moment of any schedule.",
  ["linux/att/server.go: Loop"])
p("What a call of Notifier.Write does and reports",
  "A call puts at most one PDU on the air, of the kind and value handle of its notifier, carrying its data or at least the first 20 bytes; it returns at most once; for a notification nil means that the connection took the PDU; for an indication that it was confirmed, exactly once; an error of the connection, the end of the server and the time-out are reported as such. At most one indication of a connection is unconfirmed at any time. Nothing is sent that no call asked for.",
  "all service tables, any number of concurrent calls, all schedules and failures",
  "Concurrent calls share one buffer and one confirmation channel.",
  ["linux/att/server.go: notify, indicate, Loop", "handler.go: notifier.Write"])
q("C132","A confirmation ends the wait","A confirmation that has arrived ends the call that waits for it without any timer.")
q("C133","Only the end of the connection ends the serving","The server goes on until the connection ends, whatever PDUs arrive.")
q("C131","Data given to a write handler stays the same","A write handler may keep the data of a request after it has returned.")
q("C131","No PDU longer than the old MTU before the MTU response","Until the answer to an Exchange MTU Request is written no PDU is longer than the MTU before it.")
q("C134","Nothing is sent after the peer has switched it off","After a write to the configuration descriptor that switches notifications off has been answered, none is sent.")
p("Every connection is served from the services published when it was accepted",
  "The table a connection is served from is the one made of the services published when it was accepted, in the order of their publication and each as the application created it (plus configuration descriptors); handles, types, values and user handlers of it never change while the connection lasts. What happens on a connection does not depend on other connections, nor on publications of services that are not in its table: its behaviour is that of a lone ATT server on that table.",
  "all histories of creating, adding, setting and removing services, accepting connections, and activity of any number of connections in any interleaving",
  "Services are shared objects that every publication rewrites, while any number of connections is being served.",
  ["linux/device.go: loop, AddService, RemoveAllServices, SetServices", "linux/gatt/server.go: AddService, RemoveAllServices, SetServices", "linux/att/db.go: NewDB, genCharAttr, newCCCD"])
q("C140","Publishing services does not disturb the connections there are","AddService and SetServices leave the connections accepted before as they are: notifications name the value handle the peer knows, its configuration is kept and obeyed.")
p("A connection we made serves the peer's requests in order, one at a time",
  "On a connection made with Dial the requests of the peer reach the handlers of the embedded server in the order they were received, unmodified, each at most once; answers and handler calls are those of a server that does one request after the other; each answer is written before the next request is handled. A request is thrown away only when ten others wait. A call of Write on a notifier of such a connection puts at most one PDU on the air, with its data, and returns at most once. A crash of the serving side comes from the handling of a request.",
  "all service tables, all sequences of PDUs of the peer, any number of concurrent requests of ours and calls of notifiers, all schedules and failures",
  "Client goroutines, the serving goroutine and the application's calls interleave without bound.",
  ["linux/att/client.go: Loop, asyncReqLoop, sendResp, WithServer", "linux/att/server.go: HandleRequest, notify, indicate", "linux/device.go: Dial", "linux/gatt/client.go: NewClient, ClientWithServer"])
p("Serving the peer does not disturb our own requests, and cannot deadlock with them",
  "On a connection made with Dial no answer is written between a request of ours and its end; everything promised about our own requests, notifications and indications (C27, C28) holds as without a server; from every reachable state, without the peer sending anything more, every request of the peer that was not thrown away can still be handled and answered (or its handling crashes).",
  "all histories and schedules of a client with an embedded server",
  "Two users of one transmit buffer and nested waits on several channels; freedom from deadlock over all interleavings.",
  ["linux/att/client.go: sendReq, sendResp, asyncReqLoop, Loop"])
q("C142","Every request of the peer is answered","Every request the peer sends on a connection we made is handled and answered.")
q("C143","An answer does not wait for our own request","The answer to a request of the peer is written without waiting for the peer's answer to ours.")
q("C142","A confirmation ends an indication on a connection we made","An indication sent on a connection made with Dial ends when the peer has confirmed it.")
q("C142","The end of a connection we made closes its notifiers","When a connection made with Dial ends its notifiers are closed.")
p("Client calls and notification handlers never overlap",
  "While a notification handler of a client runs, no request of that client's methods is sent, no other handler of it is called and none of its methods returns (except Conn, Pair, StartEncryption, OpenLECreditBasedConnection, ConnectionHandle); from the first request of a method until it returns no other method sends or returns and no handler is called.",
  "any number of goroutines calling any methods, all sequences of notifications, all schedules, all outcomes of the calls",
  "Mutual exclusion over all interleavings of goroutines and notifications.",
  ["linux/gatt/client.go: Client, HandleNotification, ReadCharacteristic, WriteCharacteristic, Subscribe, Unsubscribe, ClearSubscriptions, CancelConnection, Disconnected, Name, Addr, Profile", "linux/att/client.go: Loop"])
p("Which notifications reach which handler, under concurrency",
  "Notifications and indications are dealt with in the order of their arrival, each at most once; one is thrown away only when sixteen others wait. A handler is only called with the value of a notification for a characteristic it was successfully subscribed to. After Unsubscribe has returned, no notification (and, when both kinds are unsubscribed, nothing) is delivered for the characteristic until a Subscribe returns. The numbers handed to the handlers of a characteristic start at 0 and grow by one with each notification for it, as long as no (un)subscription of it fails and the subscriptions are not cleared. Concurrent calls have the effect of the same calls made one after the other in the order they return.",
  "any number of goroutines calling any methods, all sequences of notifications, all schedules, all outcomes of the calls",
  "Linearizability of the subscription state with respect to calls and notifications over all interleavings.",
  ["linux/gatt/client.go: setHandlers, HandleNotification, Subscribe, Unsubscribe, ClearSubscriptions", "linux/att/client.go: Loop"])
p("A client cannot deadlock as long as its handlers do not call it",
  "As long as no notification handler calls a method of its client (other than those that take no lock), handlers return and requests end: whenever a call has not returned or a notification has not been dealt with, something can go on; without new calls and notifications this comes to an end after finitely many steps, with every call returned and every notification dealt with (unless a short notification or a short transmit buffer ends the process).",
  "any number of goroutines calling any methods, all sequences of notifications, all schedules",
  "Freedom from deadlock and termination over all interleavings.",
  ["linux/gatt/client.go: Client, HandleNotification", "linux/att/client.go: Loop"])
q("C150","A notification handler may use its client","A notification handler can call the methods of its client.")
q("C148","Closing a connection does not wait for others","CancelConnection returns without waiting for requests of other goroutines or for running notification handlers.")
q("C149","No notification is lost while a call or a handler runs","Every notification for a subscribed characteristic is delivered.")
p("Every request returns the answer, or an error after silence",
  "A request of the attribute client returns the first PDU from the peer that answers it, as long as no two seconds pass without a PDU; two seconds of silence end it with an error; it always returns, within two seconds for each stray PDU and two more.",
  "all sequences of PDUs with all arrival times",
  "Arbitrary sequences and timings.",
  ["linux/att/client.go: sendReq"])
q("C154","A request ends after two seconds","A request without an answer returns an error after two seconds.")
p("The configuration of a device is that of the last option of each kind",
  "Whatever options NewDevice is given, in whatever order and however often: each setting (dial and listen time-out, connection, scan and advertising parameters, synchronous handler, error handler, cache file, bond manager, transport) is the one given last, and the documented default if none was given; security is on exactly if a bond manager was given. Options given later to the device change only what they name. The options of the package are never refused.",
  "all lists of options",
  "Lists of options of any length and order.",
  ["option.go: Option, Opt*", "linux/hci/option.go: Set*, EnableSecurity", "linux/hci/hci.go: NewHCI, Option"])
p("What NewDevice opens, and what it leaves behind when it fails",
  "A device returned by NewDevice is served over the transport asked for (HCI device number, TCP address, serial port and rate), which is open, opened once and not used by anything else; its parameters are legal. When NewDevice fails because the transport cannot be opened, breaks during set-up or the controller has no buffers, no goroutine stays and the open descriptors are those of before once the goroutines it had started are gone. NewDevice succeeds if the transport can be opened, the parameters are legal and the controller carries out the set-up.",
  "all options, all behaviours of the operating system and of the controller, at every moment, all histories of other devices of the process",
  "Every system call may fail at every moment; devices appear and disappear.",
  ["linux/device.go: NewDevice, NewDeviceWithNameAndHandler", "linux/hci/hci.go: Init", "linux/hci/transport.go: getTransport", "linux/hci/socket/socket.go: NewSocket, open", "linux/hci/h4/h4.go: NewSerial, NewSocket"])
p("An HCI device is used by one device of the process at a time",
  "Over all histories of NewDevice and Stop calls of a process no HCI device is held twice; a device that was not stopped has its transport open. The HCI device opened was free when it was taken. Once the goroutines of a stopped device are gone, its HCI device can be opened again.",
  "all histories of NewDevice and Stop calls, all behaviours of the operating system",
  "Histories of any length.",
  ["linux/hci/socket/socket.go: NewSocket, open, Close", "linux/device.go: NewDeviceWithNameAndHandler, Stop"])
p("A UART or TCP transport starts silent",
  "A UART or TCP transport is used only after a reset command was written and a read returned nothing; all bytes read before that are thrown away. If it does not fall silent before the deadline, opening it fails; it never waits for ever.",
  "all sequences of reads with all contents and timings",
  "Arbitrary sequences of reads.",
  ["linux/hci/h4/h4.go: NewSerial, NewSocket, resetAndWaitIdle"])
q("C156","An option that cannot be carried out is reported","An option that cannot be carried out (a bond manager of the wrong type, an unsupported role) makes NewDevice fail.")
q("C157","A failed NewDevice leaves nothing open","When NewDevice fails, whatever the reason, nothing it opened stays open.")
q("C157","NewDevice waits for a busy HCI device","When the HCI device asked for becomes available within the minute during which NewDevice keeps trying, it is opened.")
q("C158","The first available HCI device is found","With id -1 an available HCI device is opened if there is one.")
q("C158","A stopped device can be opened again","After Stop has returned, the HCI device can be opened again by NewDevice.")
p("What is written on a connection is what the other end reads",
  "Whatever is written on one end of a connection, in writes of any size up to the MTU: provided the controllers carry the payload bytes over in order (cutting them into packets anew, under the receiver's handle), at every moment of every execution of the receiving host the payloads its reader has obtained are exactly the first k written, in order and unchanged, and all of them once everything has arrived and been taken - as long as the connection is registered, whatever else the host does.",
  "all sequences of writes, all packet sizes on both sides, all executions of the receiving host",
  "All payloads, all fragmentations and all interleavings with other traffic and other connections.",
  ["linux/hci/conn.go: Write, writePDU, recombine, Read", "linux/hci/hci.go: handleACL, handleLEConnectionComplete, cleanupConnectionHandle"])
p("An interrupt during a call runs the handler and does not end the process",
  "With a context made by WithSigHandler: an interrupt (SIGINT, SIGTERM) while AdvertiseNameAndServices, AdvertiseIBeacon(Data), Scan, Find, Dial or either half of Connect is in its operation does not end the process, and the handler has been called or is about to be called unless the call's context ends; it is called only after such an interrupt, at most once per call (twice for Find and Connect). When all calls have returned, interrupts have their default effect again, as they have at all times when no context carries a handler. Without a default device the calls return at once and leave nothing.",
  "all interleavings of any number of concurrent calls, contexts ending and interrupts",
  "Signals arrive at every moment, in every interleaving.",
  ["gatt.go: trap, untrap, WithSigHandler, Scan, Find, Dial, Connect, Advertise*"])
q("C166","A call leaves nothing behind when it has returned","When a call with a handler has returned, none of its goroutines is left and its handler is not called any more.")
q("C166","One interrupt calls the handler once","One interrupt during one call makes one call of the handler.")
q("C166","Connect is protected throughout","An interrupt at any time during Connect with a handler does not end the process.")
p("A transport may be used and closed by several goroutines",
  "Read, Write and Close of a transport may be called by any number of goroutines, in a process that opens and closes other files: no call ever closes a file that is not the transport's; when a Close (any of several) has returned, the transport's file is closed; before a Close began it is open. A Read that returns data took exactly these bytes, once, from the transport's file; a Write that reports success wrote its packet whole and once, one that fails wrote nothing. Calls begun after a Close has returned report io.EOF (Close: success) and touch nothing. A Read asks for data only when there are some. At most one call reads or closes, and one writes, at a time; there is no deadlock and every call takes at most six steps.",
  "any number of concurrent calls, all schedules, all results of the system calls, all openings and closings of other files",
  "Races between Close and the other calls, with descriptor numbers used again, over all interleavings.",
  ["linux/hci/socket/socket.go: Read, Write, Close, isOpen", "linux/hci/h4/h4.go: Write, Close, isOpen"])
q("C170","A closed transport no longer touches its descriptor","After Close has returned, no call of the transport, also none begun before, reads or writes anything.")
p("Which PDUs pairing sends, and in answer to what",
  "In every execution each received Security Manager PDU, each call of Pair and each time-out makes the device send at most one Security Manager PDU, on channel 6 with the right length. To a Pairing Response it answers with its public key or a confirm value, to a confirm with its random number, to a random number with the next confirm or the DHKey check, to a Security Request with a Pairing Request, to a public key with the first confirm of a passkey, to a PDU a responder never sends with Pairing Failed (command not supported), which changes nothing; to any other it does not answer. Pair sends a Pairing Request.",
  "all states, all received PDUs, all keys, random numbers and failures",
  "Every state of the pairing with every PDU.",
  ["linux/hci/smp/manager.go: Handle, Pair, StartEncryption", "linux/hci/smp/handler.go", "linux/hci/smp/transport.go", "linux/hci/smp/dispatch.go"])
p("The map of an advertisement",
  "ToMap of every advertisement a scan hands to its user succeeds. Its mac entry is the six address bytes, most significant first, as twelve lower-case hexadecimal digits; address type, event type and connectable are those of the report; rssi is the report's signed strength, -128 when that is 0. Each advertising field present in the data of the report, followed by the data of the attached scan response, has its entry (name as text, transmit power as the unsigned number, manufacturer data, flags, service and solicited UUIDs, service data listed under each UUID's text in the order it came), a field that is not there has none; an error entry is there exactly when those data end malformed.",
  "all report sequences, all addresses, types, strengths and data",
  "Every report with every record list and every history of scan responses.",
  ["linux/hci/adv.go: ToMap", "linux/adv/packet.go: Map", "linux/hci/adv_werr.go"])
q("C173","The map has the same values as the accessors","RSSI and TxPowerLevel return the same numbers as the rssi and txPower entries of ToMap.")
p("What one device advertises is what another one's scan shows",
  "For every advertising call but the raw ones (name and services, advertisement with manufacturer data, manufacturer data, 16-bit service data, iBeacon): whatever reports a scanning device has received before, the advertisement its user gets for a report of what the call put on the air shows as Services exactly the given UUIDs, in order, as far as they fit (28 bytes, two more per UUID), as LocalName the name if it fits beside them and otherwise no name, as ManufacturerData and ServiceData what was given (of AdvertiseAdv if it fits beside the name), no solicited services. When the device's scan response follows, with fewer than 127 advertisements of others in between, the advertisement handed over for it shows the same and in addition the name if it has at most 29 bytes, and the manufacturer data if there was room for it only in the scan response. Nothing else is shown.",
  "all calls with all arguments, all report histories of the scanner, all addresses",
  "Every argument with every history: the composition of building, carrying, remembering, merging and parsing.",
  ["linux/hci/gap.go: AdvertiseNameAndServices, AdvertiseAdv, AdvertiseMfgData, AdvertiseServiceData16, AdvertiseIBeacon, AdvertiseIBeaconData", "linux/adv/packet.go", "linux/hci/hci.go: handleLEAdvertisingReport", "linux/hci/adv.go: LocalName, Services, OverflowService, ManufacturerData, ServiceData, SolicitedService"])
p("Calls of Pair and their returns",
  "In every execution of a connection's pairing every call of Pair returns at most once; at every moment all calls but at most one have returned, and that one can return by its time-out, which is never prevented. At most one call in the life of a connection does not return at once, every call after it fails at once, sends nothing and changes nothing, and at most one call reports success.",
  "all sequences of received PDUs, calls, time-outs and failures",
  "Every interleaving of messages, calls and time-outs.",
  ["linux/hci/smp/manager.go: Pair, waitResult, Handle"])
q("C176","A failed pairing can be tried again","After a call of Pair has failed or timed out, a further call on the same connection tries to pair again.")
p("Profile.Find searches by the target's type and UUID",
  "For a target that points to a service, characteristic or descriptor, Find returns the first element of the profile of that type with the target's UUID, in declaration order, and a nil pointer of the target's type if there is none; it does not panic. For every other target it returns nil.",
  "all profiles, all targets of all types", "All trees and targets.",
  ["profile.go: Find, FindService, FindCharacteristic, FindDescriptor"])
q("C178","Find's result can be tested for nil","The result of Find equals nil exactly when the profile has no element of the target's type and UUID (the test made in examples/blesh), and a nil pointer as target is survived.")
p("What a connection says of itself",
  "In every history of the host, RemoteAddr of a connection is the text of the address in its connection event: six bytes, most significant first, as pairs of lower-case hexadecimal digits separated by colons, so that two addresses have the same text exactly if they are the same. LocalAddr is that text of the controller's address, whatever the device has done since it was set up. ReadRSSI sends one Read RSSI command with the 16-bit handle of the connection event and returns the signed strength of a successful answer; for a failed, short or missing answer it returns 127 and an error. ConnectionHandle is the low byte of the handle.",
  "all histories of packets and calls, all addresses and handles, all answers of the controller",
  "Every address, handle and answer after every history.",
  ["linux/hci/conn.go: LocalAddr, RemoteAddr, ReadRSSI, ConnectionHandle", "linux/hci/gap.go: Addr", "linux/gatt/client.go: ReadRSSI, ConnectionHandle"])
q("C180","ConnectionHandle identifies the connection","ConnectionHandle is the handle the controller gave the connection, and two open connections have different ones.")
p("The texts of error codes",
  "The text of an ATT error code below 0x11 is its name; application codes (0x80 to 0x9F) and reserved ones are shown with their number in hexadecimal; codes from 0xE0 on are called profile or service errors. Codes below 0xE0 have different texts. The text of a controller error code is its name, and different codes other than the reserved ones have different texts; a code without a name has the text of Unspecified Error.",
  "all error codes", "All codes and all pairs of codes.",
  ["error.go: ATTError.Error, errName", "linux/hci/error.go: ErrCommand.Error, errCmd"])
q("C182","Every ATT error code can be told from its text","Different ATT error codes have different texts, and each code with a name has its name as text.")
p("Advertising and scanning settle on the last call, under every schedule",
  "Whatever advertising, StopAdvertising, Scan, StopScanning and Dial calls run at the same time, and whatever connections come and go meanwhile: when the call that was last to say whether the device should advertise (scan) has returned success (HCI being open, and no command answered after its three-second time-out: C97), the last such command the controller accepted said just that, and this stays so until another call says otherwise. Only these calls say so, the host itself never does: after StopAdvertising (StopScanning) has returned success the device does not advertise (scan) until asked again, also if it was being enabled again because of a connection all the while. As long as no two advertising calls overlap, the payload on the air after the latest has returned success is its own, byte for byte (for calls other than AdvertiseRaw: if no command is refused or lost, C114). As long as a call has not returned a step is possible, its own or of the call holding the opcode it waits for; a call takes at most 23 steps.",
  "any number of calls at the same time, all schedules, all answers and losses of commands, all connections coming and going",
  "Two calls and the goroutine enabling advertising again share one struct and race for the controller, over all interleavings.",
  ["linux/hci/gap.go: SetAdvertisement, Advertise, StopAdvertising, Scan, StopScanning, Dial", "linux/hci/hci.go: handleLEConnectionComplete, handleDisconnectionComplete, cleanupConnectionHandle, send", "linux/hci/params.go", "linux/device.go: AdvertiseRaw"])
q("C184","Calls at the same time do not mix","The payload on the air is at every time that of one of the advertising calls, and a Dial asks the controller for the address it was given.")
p("Reports handled while Scan is called",
  "While reports are handled, Scan may be called at any time, by any number of goroutines. For each report at most one advertisement is handed over: the one in the report, or, for a scan response, an earlier advertisement from the same address with that scan response. An advertisement changes only by scan responses from its own address. A report takes a bounded number of steps (at most 1300) and never leaves the event loop stuck. The event loop crashes on the history only while it handles a scan response, and only if Scan replaced the history meanwhile. A report during which no Scan is at work is handled exactly as if there were no other goroutine, and a Scan between two reports empties the history.",
  "all report sequences, any number of calls of Scan, all interleavings of their assignments with the reads and writes of the event loop",
  "A race between two goroutines: every interleaving of single reads and writes.",
  ["linux/hci/hci.go: handleLEAdvertisingReport", "linux/hci/gap.go: Scan", "linux/hci/adv.go: setScanResponse"])
q("C186","A call of Scan never crashes the process","Scan may be called again at any time, also while the reports of an earlier scan still arrive, without crashing the process.")
q("C186","An advertisement handed over does not change","An advertisement does not change any more once it has been handed to the handler.")
p("Writes by several goroutines arrive whole",
  "Any number of goroutines may write at the same time, on any connections (characteristic and descriptor operations, notifications, signalling, pairing), while connections come and go and buffers run short. As long as the MTU of a connection is not made smaller while a Write on it is being checked: the packets of a call are a contiguous part of what reaches the controller, with its connection's handle; they are the pieces of its PDU in order, each as large as a controller buffer except the last, the first marked start and the others continuing, and all of them are there once the call has returned without an error. A call that starts after another has returned has all its packets after it. When all calls on a connection have returned without an error, its peer recombines exactly their PDUs, each once. After a connection has been declared closed at most one more packet is written for it. Write never crashes. A call takes a number of steps bounded by the length of what it sends; as long as it has not returned it can go on, or the goroutine it waits for can, unless all buffers are with the controller. Every buffer is at every time free or with exactly one connection.",
  "any number of calls on any number of connections, all interleavings, all buffer counts and sizes, all completions and failures of the transport",
  "Goroutines share a pool of buffers, its lock and the transport: every interleaving.",
  ["linux/hci/conn.go: Write, writePDU, SetTxMTU", "linux/hci/buffer.go: Get, Put, PutAll, LockPool, UnlockPool", "linux/hci/hci.go: cleanupConnectionHandle, handleNumberOfCompletedPackets", "linux/hci/signal.go: Signal", "linux/hci/smp/transport.go"])
q("C189","A changing MTU does not corrupt or crash a Write","A Write that returns without an error has sent its value as one PDU, and Write never crashes, also when the MTU is changed while it runs.")
p("Signaling calls at the same time",
  "Any number of calls of OpenLECreditBasedConnection and of credit returns may run at the same time on one connection, whatever the peer sends. The event loop never waits for one of them. Every call ends: a step is possible until it has returned, waiting for an answer being given up, and it takes few steps. A call that succeeds has sent its request, and the peer has sent a response granting just the channel returned. No response makes two calls succeed. The channels of different calls have different local identifiers of 64 to 65535, and each channel there is belongs to the call that opened it. If requests are prepared one at a time (waiting for the answers may overlap), the response has the identifier of the call's own request, and no request has the identifier 0.",
  "any number of calls, all interleavings of their accesses to the shared identifier and of the commands of the peer, all payloads, timeouts, failing writes and closings of channels",
  "Goroutines race for an identifier, a table and the transport: every interleaving.",
  ["linux/hci/signal.go: Signal, handleSignal", "linux/hci/coc.go: Open, NextSourceCID, addChannel, CloseChannel"])
q("C191","Opening channels at the same time does not mix","Calls of OpenLECreditBasedConnection at the same time each get the response to their own request, whose identifier is never 0.")
with open('/verif/properties.jsonl','w') as f:
    for x in P: f.write(json.dumps(x)+"\n")
print(len(P))
