# Formal model of rigado/ble in Rocq (Coq 8.16.1)

## Layout of rocq/theories
* `Base.v` – bytes, Go panics, slices. `M_<x>.v` – the model, `S_<x>.v` – specification vocabulary written
  without the model's helpers, `P_<x>*.v` – proofs, `Props_<x>.v` – the theorems `Cnn_...`, each followed by
  `Print Assumptions` and by `Example`s showing that its hypotheses are met by a non-trivial case.
* `M_cmdtab.v` is generated from cmd_gen.go by `tools/gencmd.py` (committed). `tools/props.py` generates properties.jsonl,
  `tools/manifest.py` generates MANIFEST.json and the file list of `_CoqProject`.
* `seeded/LOG.jsonl` – one line per wrong program tried (model edited as a realistic bug would, rebuilt, failing theorems listed).

## Conventions of the model
* Every Go function that matters to a property becomes a total Gallina function with the /repo file and lines cited
  above it. Loops without an obvious bound carry fuel, with "out of fuel" as a separate result (divergence).
* Bytes are `Z` with `0 <= b < 256`; byte slices and strings are `list Z`; fixed-width arithmetic is written with explicit
  `mod` (u8, u16, u32) where the Go code can wrap. A slice's capacity is its length unless the code depends on it.
* A Go runtime panic (index/slice out of range, nil dereference, division by zero, send on/close of a closed channel, explicit
  `panic`) is the value `Panic` of `go A`; a Go `error` is an ordinary value (its text is not modelled).
* Mutation becomes a function returning the new state. Goroutines become transition systems whose steps are channel
  operations, lock operations and writes; every interleaving is allowed; a timer may fire whenever its owner waits. A theorem
  about concurrency quantifies over all finite step sequences, so it holds at every point of every execution.
* Randomness, AES/CMAC/ECDH, JSON, the file system, user callbacks, the peer and the controller are parameters
  (ordinary function arguments); what is assumed of them is a hypothesis visible in the theorem, and an Example shows that it can be met.
* Where the code violates a property the violation is proved (`..._refuted`, a concrete reachable witness) and the largest
  true part is proved, either as `..._partial` or as a property of its own whose statement says exactly what holds.
  properties.jsonl therefore has guarantees (C01-C63 and later ones marked proved) and ideals that the code
  does not meet (status partial, only refutations). MANIFEST.json's notes say which theorem is which.

## Per-property plan
| id | modelled | how it is proved |
|----|----------|------------------|
| C01, C02, C50 | M_uuid: uuid.go, addr.go, hex codec, sliceops/swap.go | induction on strings/bytes; exact characterisation of accepted strings |
| C03, C05, C06, C40 (C64, C65, C98) | M_adv: linux/adv/packet.go, parser/parser.go, packing in gap.go | induction on record lists; case analysis on lengths; builder and decoder related through a record syntax |
| C04 | parser.go with panicking slices | exact set of panicking inputs; safe on all others; witness |
| C07, C08 (C66, C67) | M_advrep: evt_werr.go, adv.go, adv_werr.go, handleLEAdvertisingReport with its ring | offsets as in the Core specification layout; refinement of the ring to "latest remembered advertisement of the address" over histories |
| C09 (C68) | M_h4: h4/frame.go | invariant relating assembler state to the consumed prefix; induction on chunks |
| C10, C11, C49, C51 (C69-C71) | M_attdb: profile.go, att/db.go, gatt/server.go | induction on service trees; histories of API calls |
| C12-C24 (C72-C81) | M_attsrv, M_ind: att/server.go, handler.go, CCCD closures of db.go | invariant over request histories; per-opcode equality with an independent specification of the response; transition system for indications |
| C25-C28 (C82-C85) | M_attcli, M_attloop: att/client.go, att_gen.go encodings | per-operation case analysis against any peer; transition system for sendReq/Loop with invariants and history variables |
| C29-C31 (C86-C90) | M_gattcli: gatt/client.go | against any conforming server (specified as a predicate on its answers): induction on the remaining range/value; subscription invariant over histories |
| C32 (C91) | M_l2cap: conn.go Write, writePDU, Read, recombine | induction on fragments |
| C33 (C92) | M_bufs: buffer.go, locking of writePDU, the event handlers | invariants over all interleavings of any number of goroutines and connections |
| C34-C37, C52 (C93, C94, C104) | M_coc: coc.go, signal.go, signal_gen.go | invariants over histories; codec round trips; delivery of answers to waiting callers |
| C38 (C95, C96) | M_cmdtab, M_cmd: every command and return structure of cmd_gen.go as a field layout, cmd.go, vendor.go | generic codec theorem; every entry compared with an independently written table of the Core specification |
| C39 (C97) | M_hcicmd: the command path of hci.go | transition system; invariants; progress by a measure |
| C41 (C99) | M_params: params.go | exact rational arithmetic scaled to integers |
| C42-C45 (C100, C101) | M_smp: linux/hci/smp over abstract primitives; conn.go encrypt | specification functions written separately; trace invariants over any message sequence; exact crash and wedge sets |
| C46, C47, C102 | M_store, M_bond: bond/manager.go, bond.go | refinement to a finite map, also for concurrent calls under the lock; crash semantics of the file |
| C48, C53, C54, C103, C105, C106 | M_cache: cache/cache.go, gatt/client.go:110-133 | as above |
| C55-C63 | M_hci: dispatch and connection table of hci.go, life cycle of conn.go, Dial/cancelDial/Accept of gap.go | transition system; invariants over all interleavings |
| C107, C108, C109 | S_e2e: the server of M_attsrv as the peer of M_gattcli/M_attcli, handlers arbitrary at every call (P_e2e, P_e2e2, P_e2e3, Props_e2e, Props_e2esub); a PDU on which the server would crash is left unanswered and without effect | the server is shown to be a conforming server in the sense of C29 (any tree, any history), then C29/C19/C20 are composed; for C109 an invariant relates the client's subscription table with the server's configuration values over all histories |
| C110-C112 (C113, C114, C115) | M_gap: gap.go, Init/init/Option of hci.go, params.go, re-enabling of advertising in the connection events, Advertise* of device.go; S_gap: a controller per Vol 4 Part E (conforming: may refuse or lose anything, does what it accepts; willing: accepts what is allowed) | packets by the command tables; case analysis on the controller's answer; invariants over all histories of calls, connections and disconnections; the requested payload is specified by records and shown unique |
| C116, C117 (C118, C119, C120) | M_scan: Scan, Find, Connect of gatt.go, Device.Scan, delivery of reports by the event loop; caller, event loop, handler goroutines, two contexts and controller interleaved | invariants over all executions (phase/controller agreement, each report in one place, FIFO empty after the stop); a measure for the program's own steps plus an analysis of states without steps |
| C121 (C122, C123, C124) | M_life: h4.go, socket.go Read/Close, sktReadLoop, sktProcessLoop, close, cleanup (socket part), Close, dispatchError; framing by M_h4 | invariant: received = handled ++ channel ++ reader ++ dropped ++ queue ++ assembling; measure; analysis of quiet states |
| C125 (C128-C130), C126 (C127) | M_enc: Conn.StartEncryption/Pair/encrypt, handleEncryptionChanged, handleEncryptionKeyRefreshComplete, channels, the shared bond store; M_smp per connection; packets by M_hci.dec_pkt | S_enc defines everything over the history (owner of a handle, listener, store, channel contents); invariant P_enc2.Inv ties the state to it, kept by each kind of step (P_enc3-P_enc6); P_enc7: stored bonds stay usable; P_enc8: each observation classified |
| C131-C134 (C135-C139) | M_srvloop: Server.Loop with its reading goroutine, the two recycled buffers, notify/indicate calls, the buffer swap of the MTU exchange, as a transition system with one action per atomic step; M_attsrv for what a request does | S_srvloop speaks about delivered PDUs, observed handlings, writes and returns. Invariants by induction over executions: ownership of buffers (P_srvloop2), tokens of the notification and indication channels (3), history against the sequential server (4), a decreasing measure and the shape of states at rest (5), calls (6), the end and crashes (7), splitting of histories (8) |
| C140 (C141) | M_dev: the device as a peripheral: service objects, AddService, SetServices, RemoveAllServices, the accept loop, one M_srvloop server per connection; publications rewrite the handles in the shared objects and with them what the configuration descriptors of older tables see ([refresh]) | S_dev derives objects, published services and touched objects from the history alone. P_dev: every descriptor of a table agrees with an object of it, so a refresh changes nothing; P_dev2: a server only uses its table, a publication only touches the objects it publishes; P_dev3: induction over the history; P_dev4: tables are made of the published services |
| C142, C143 (C144-C147) | M_dual: M_attloop with the server side of M_srvloop and asyncReqLoop between them (caller number 0 of the client takes the transmit buffer for answers) | S_dual reads both sides off one history. P_dual: every run is a run of M_attloop with one caller more; the queue of requests is a merge; P_dual2: the server-side invariants of M_srvloop without its reader; P_dual3: exclusion by the one transmit buffer; from every reachable state a run without input that finishes all requests is constructed |
| C148, C149, C150 (C151-C153) | M_gattlock: the RWMutex of gatt.Client, any number of goroutines in its methods (requests sent one by one with the lock held, effects those of M_gattcli), the notification goroutine with its queue of 16, handlers that may call the client | S_gattlock speaks about the trace (calls, requests, returns, notifications, handler calls). P_gattlock: the lock is held exactly by who is inside (invariant), exclusion by induction over runs; P_gattlock2: queue as a merge, trace as a sequential history ([one_by_one]); P_gattlock3: consequences for handlers, unsubscription, numbers by induction over the history; P_gattlock4: a lexicographic measure (no endless internal work) and progress |
| C154 (C155) | M_reqwait: the wait of sendReq with arrival times | induction over the sequence of arrivals |
| C156, C157, C158 (C160-C164) | M_open: the options and setters, NewHCI, Init, getTransport, socket.NewSocket/open, NewSerial/NewSocket of h4, NewDevice, Stop; the operating system as descriptors of the process plus an environment giving for each moment the devices present, those held by others, refusals, poll and read results | last-of-kind lists (S_open); every way NewDevice ends (`ends`, P_open2); invariant `sane` over histories; orphan descriptors stay for ever |
| C159 | M_open wait_idle | induction over the reads |
| C165 | composition of M_l2cap (one end writing) with M_hci (the other end, any execution) and M_l2cap (its reader); the two controllers and the air are the relation `air` of S_link: same payload bytes, any cutting | prefix lemma for recombination (any prefix of the packets gives the PDUs completed in it), C55's order theorem, and that a registered connection has been given all packets of its handle since the event that made it |
| C166 (C167-C169) | M_sig: trap, untrap, WithSigHandler and the package level calls of gatt.go as instruction lists, os/signal as registered channels with one-element buffers, contexts with handler and end | invariant over all interleavings (registrations = open traps of calls in progress, every instruction list unwinds its traps), trace lemmas for pending signals and handler calls |
| C170 (C171) | M_sock: Read, Write, Close, isOpen of the socket transport and Write, Close of h4, one action per lock, test and system call; the process's descriptor table, in which other parts open and close files at any moment | invariant (mutex holders, the closer, the table entry of the transport), histories per call, ranking of the steps of a call; the ideal by concrete schedules |
| C172 | M_smp (as C42-C45) | a predicate on the state-and-output monad (silent / says one of these codes), closed under its combinators, for every handler |
| C173 (C174) | M_tomap: ToMap over M_advrep and the packet's map, the error paths of every accessor, bytes[0] of the txPower entry as an index that may panic | S_tomap: the entry of every key from the report and the record list; the loop over the map by induction over the keys, the packet's map as that of the records (P_adv2), delivered advertisements from the scan refinement (C08) |
| C175 | M_air: the accessors of an advertisement; M_gap/M_adv (calls), M_advrep (scan), parser | S_air: what each call should show, by the room in the two packets; composes C110 (what is on the air), the scan refinement of C08 (newest advertisement of the address within the window, invariant over the reports in between) and the decoding of record lists (C05) |
| C176 (C177) | M_smp: Pair, Handle, the result channel (as C42-C45) | accounts on traces: calls = returns + waiting, by induction over the execution with the invariant that a waiting call excludes the initial state |
| C178 (C179) | M_pfind: Profile.Find over interface values (nil, typed pointers that may be nil, other types) | case analysis on the target, C51 |
| C180 (C181) | M_connapi: LocalAddr, ReadRSSI, ConnectionHandle over M_gap's controller and M_hci's connections | C56 (connections are those of the events), C111, case analysis of the answer |
| C182 (C183) | M_errtext: ATTError.Error and ErrCommand.Error | all 256 codes by computation, lifted to a statement for all codes |
| C184 (C185) | M_gapconc: the calls of gap.go as sequences of assignments to the shared parameter structs and of commands, with the opcode lock, beside the goroutines re-enabling advertising; every assignment, lock, marshalling, write and answer is a step of its own, in any interleaving | an invariant relating the last assignment of the enable value, the phase of its thread, the lock and the controller's log; counterexamples by computation for C185. Simplified: one field assignment is atomic (Go promises less for unsynchronised accesses) |
| C186 (C187, C188) | M_advrace: handleLEAdvertisingReport with every read and write of the history, its position and a slot as one step; calls of Scan with their two assignments; advertisements as shared objects | invariant over all interleavings (rings of 128 slots, ids in range, what each place of the loop holds for its report), a measure that also the resetting of the position does not raise (steps per report), simulation of M_advrep.handle_adv_report for the loop alone (distinct objects in the slots); the crash of C187 and the change of C188 are concrete runs |
| C189 (C190) | M_aclw: Write and writePDU of any number of goroutines on any number of connections, every read of the MTU and of the closed channel, lock, Get, filling and transport write as one step; clean-up of a connection, completed-packets events, changes of the MTU | invariant over all interleavings (the log is a sequence of blocks, one per call; the lock holder's block is the last; what each call has yet to send completes its block to the cut of its PDU), composition with the receiver of C32; the corrupt and the crashing Write of C190 are concrete runs |
| C191 (C192) | M_sigc: Signal, Open and the handing over of answers by handleSignal for any number of goroutines, every access to c.sigID a step, registration, write, waiting, timeout, deferred deletion and addChannel separate steps | invariants over all interleavings (a registered thread's channel is empty; what each phase holds; answers used are commands received; identifiers of channels distinct; under one-at-a-time preparation the shared identifier is that of the preparing or last call), a measure for the number of steps; witnesses for C192 run by computation |

## What is abstracted
* M_store/M_bond/M_cache: jsoniter is a codec with the law decode(encode x) = x (hypotheses `json_ok`, `cjson_ok`, witnessed by a
  concrete codec); ReadFile is atomic; WriteFile is truncate then a prefix of the data then the rest; close errors ignored.
* M_hci: the command path is M_hcicmd, buffers are M_bufs, advertising reports M_advrep; cleanup of one handle is one step;
  net.ParseMAC's syntax check is not modelled; a select begun after hci.go:201 set the channel to nil is over-approximated.
* M_gap: commands are sent one at a time (M_hcicmd is the command path) to a controller given as a function of its state and the packet;
  the asynchronous `go h.Send` of the connection events is one step; sends on a closed HCI and parameter validation (C41) are not part of it.
* M_scan: one call at a time; events other than reports and the replies to the two scan commands are left out; a handler given to Scan returns; `append` by
  Find's handler is a read and a later write of the slice (the race is the subject of C120).
* M_life: handlePkt is a handler that returns (that it may block is C62); the rest of cleanup is M_hci; Close of a transport is one step.
* M_enc: one action is one atomic step of a goroutine; the application does not close its channels; addresses of a connection are given at its creation; the controller's
  answer to LE Start Encryption is part of the environment of the call.
* M_srvloop: a user handler is one step (delayed arbitrarily, but not waiting for other goroutines of the library); conn.Write is one step that succeeds or fails; the
  30 s timer may fire whenever a caller is in its select; taking the old and putting the new buffer in the MTU exchange is one step.
* M_dev: a publication is one step; characteristics are not reconfigured after creation; a service object occurs at most once in a table; the notify and indicate handlers of a
  characteristic carry its number, so that copies of handles kept by M_attsrv can be brought up to date.
* M_dual: as M_attloop and M_srvloop; our own MTU exchange is left out (the transmit MTU changes by the peer's request only); done / connection closed is the end of the
  client's Loop. C143_can_finish says a finishing run exists from every state (no reachable deadlock); it does not assume or prove fairness.
* M_gattlock: which waiting goroutine gets the lock is not determined (no fairness is assumed or proved: C150 says something can always go on and only finitely much); readers of the
  lock (Addr, Name, Profile) take one step; a request with the lock held always ends (M_reqwait); a handler that waits for another goroutine is one that has not returned yet.
* M_reqwait: work between two rounds of the wait takes no time.
* M_open: the kernel's HCI sockets are modelled by their documented rules (user channel exclusive, 16-bit device numbers, ioctls refused on bound sockets); descriptor numbers are not
  reused; a transport that breaks during the set-up commands is one event; that the goroutines of a stopped device end and close the transport is C121, here the step `settle`.
* M_smp: crypto primitives are parameters with length and byte laws (`prims_ok`, witnessed). No probabilistic security claim is made.
* M_attsrv: user handlers are arbitrary sequences of Write/SetStatus calls; handlers that panic or block are not modelled.
* M_sig: other registrations with os/signal are left out; the end of a context reaches the context derived from it in the same step; device operations are one instruction.
* M_attloop, M_coc, M_ind: time is not modelled; a time-out is a step that may happen whenever a caller waits.

## Not modelled
darwin/ (macOS back end; it does not compile at this commit: its types lack methods of the interfaces they are returned as, e.g. ReadRSSI and Pair of ble.Conn, so it has no behaviour to model), examples/, test/, linux/tools/codegen, logging, texts of errors other than ATTError and ErrCommand, raw socket
reads, wall clock values, `log`/`sync.Pool` internals, the Go memory model beyond the atomicity stated above (data races are not
detected, except where a race is itself the subject).

## Trusted base
* Coq's kernel (coqc 8.16.1; vm_compute is used for concrete examples, witnesses and finite tables).
* The correspondence of the model with the Go source, by reading; each definition cites its lines.
* The hypotheses written in each theorem.
* Axioms: every `Print Assumptions` prints "Closed under the global context". (vcheck lists seven library axioms
  `Coq.ssr.ssrunder.*` because the libraries behind `lia`/zify load them; no theorem uses one.)

## Findings (each proved; see the theorem of that number)
C04 short advertising records panic the scanner; C13/C26/C45/C58/C88/C90/C91/C104 remote crashes of the ATT server, ATT client,
SMP, HCI dispatch, discovery, notification dispatch, recombination and signaling; C44 a peer can have an arbitrary key stored as a
bond at any time; C47/C105 a crash while saving loses all bonds or the cache; C60 Disconnected never fires for accepted connections after HCI.Close;
C61 a stale Close ends another connection that reuses the handle; C62 a peer can block the event loop for good; C63 a late
connection is returned by the next Dial; C72/C80 MTU not capped; C76 Read Blob of static values ignores the offset; C78 queued writes
ignore offsets; C81/C84 lost confirmations and stale responses; C92 disconnect deadlock; C95 wrong opcodes/layouts; C97 command flow control;
C101 passkey 0 accepted, numeric comparison not shown, out-of-band data not used in legacy pairing; C113 Init ignores every command error and never enables the Remote Connection Parameter
Request event it handles; C114 advertising calls swallow the controller's refusal; C115 advertising is not resumed after a disconnection (negated test).
C118 Connect waits for ever after its context is cancelled; C119 with synchronous handlers Connect never succeeds and stops event handling for good, otherwise a
second match leaks a goroutine; C120 handlers run after Scan has returned, Find loses concurrent appends.
C122 the error handler is called with a nil error and Error() is nil after a transport failure; C123 an ACL packet longer than 4091 bytes ends the HCI over UART/TCP;
C124 the UART reader goroutine can be left blocked for ever.
C127 without security enabled a failed encryption event, StartEncryption and Pair are nil dereferences; C128 Encryption Key Refresh Complete (0x30) is never handled: its
handler is registered for LE Meta subevent 0x30, read as status 0x30; C129 the report is lost if the channel is not ready, and a failing concurrent call removes another
caller's channel; C130 "enabled" is believed although the status is a failure. (LE Long Term Key Request is only logged: a peripheral never answers it, hci.go:956-961.)
C135 an MTU request, another request and the confirmation of a pending indication block each other until the 30 s timer; a confirmation read before the caller selects is lost;
C136 an empty L2CAP payload or one longer than 515 bytes ends the ATT server; C137 a write handler's data is overwritten by later requests; C138 notifications of the new
size go out before the MTU response; C139 a notifier still sends after it was switched off.
C141 publishing services again moves the handles the configuration descriptors of existing connections use: notifications name the wrong handle, the peer's configuration is
forgotten, switching off fails to stop the notifier or stops the one of another characteristic.
C144 Device.Dial starts the client's Loop before it attaches the server: if Loop looks first no request of the peer is ever handled; requests are thrown away while ours is
open; C145 the answer waits until our own request has ended; C146 an indication on a connection we made is never confirmed, the confirmation is answered with an error
response; C147 the notifiers are not closed when such a connection ends.
C151 a notification handler that calls a method of its client never returns, and from then on neither does any other call (CancelConnection included); C152 CancelConnection waits
for other goroutines' requests and for running handlers; C153 notifications are lost while a call waits or a handler runs; C155 a peer sending stray PDUs (each restarts the
2 s timer) keeps a request, and the client's lock, for ever.
C160 every Opt... function drops the setter's error: a bond manager of the wrong type leaves security off silently; C161 parameters are validated after the transport was opened and
nothing closes it: the HCI device is lost to the process; C162 the 60 s retry loop of NewSocket closes its descriptor after the first failure, so no later attempt can succeed;
C163 with id -1 the numbers 0..n-1 are tried instead of the numbers of the n devices; C164 Stop returns before the transport is closed, so NewDevice right after it fails.
C167 every call with a signal handler leaves a goroutine until its context ends, and the handler can run after the call has returned; C168 Find traps twice, so one interrupt calls
the handler twice; C169 between its Scan and its Dial Connect has no trap: an interrupt there ends the process.
C171 a Write (Read) of the socket that passed its isOpen test before a Close uses the descriptor number after the Close: if the process has opened another file meanwhile, the packet goes
into that file and success is reported (data of that file are taken and dropped); h4 is not affected.
A detail of C11: the default Appearance is the bytes 00 80, i.e. 0x8000, where the source's comment says generic computer (0x0080).
