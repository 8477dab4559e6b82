# Formal model of aporeto-inc/netlink-go in Rocq (Coq 8.16.1)

The plan (section 2) was written before the proofs and is kept current together with the trusted base,
the list of what is modelled and what is not, the simplifications and the findings.

## 1. Shape of the development

```
rocq/theories/
  Go/Base.v        result monad (Ok / Panic / NoFuel), fixed-width integers, byte lists, endianness
  Go/Heap.v        Go slices: heap of byte arrays, (array, offset, len, cap) windows, append with growth oracle
  Model/*.v        the code, function by function, every definition citing file:lines
  Spec/*.v         small independent specifications (netlink TLV decoder, RFC 1071, header offsets, walks ...)
  Proof/*.v        lemmas
  Properties/*.v   one theorem (or several) per property, named Cnn_..., each followed by Print Assumptions
                   and by an Example showing a concrete case that meets the hypotheses
```

The property files may be read with the Model and Spec files only: a statement in Properties never mentions a
definition of Proof/*.v other than through the model function it is about.

Modelling conventions

* Integers are `Z`; every Go fixed-width operation is written with an explicit `mod 2^8/16/32/64`.
* A Go run-time panic (index/slice out of range, nil dereference) is the outcome `Panic`; Go `error`
  results are values; loops without a structural bound take fuel and yield `NoFuel` when it is exhausted.
  "Loops for ever" is stated as: `NoFuel` for *every* fuel; "terminates" as: an explicit fuel suffices.
* Slices whose aliasing matters (receive buffer, attribute table, packet buffer, detached options/data) are
  windows into a heap of arrays. `append` writes in place iff capacity suffices, otherwise it allocates; the
  spare capacity of a fresh array is an arbitrary oracle `grow`, quantified over in every theorem.
* System calls, callbacks and context polling are calls to an arbitrary environment
  `env : history -> call -> response`; the history of calls and responses is recorded in the world.
  Theorems quantify over every environment, so over every kernel, every peer and every callback.
* The machine's byte order is a parameter of every function that uses native byte order; theorems hold for both
  unless they say otherwise.
* Concurrency (C21, C22, C68, C70, ...) is interleaving of atomic one-byte memory accesses and system calls
  (sequential consistency); the per-goroutine instruction lists are proved equal in effect to the sequential model.
* Properties the code violates are kept in their full form in properties.jsonl (the violation is stated in
  parentheses). The model then carries `..._refuted` theorems (counterexamples, universally quantified over the
  offending class of inputs where that is possible) and `..._partial` theorems with the exact guard under which
  the property holds. Their status in MANIFEST.json is `partial`.

## 2. Per property: what is modelled, how it is proved

| id | property | modelled | proof | status |
|----|----------|----------|-------|--------|
| C01 | 4-byte alignment helpers round up, and exactly where they wrap | Common.v: NlMsgAlign, NfaAlign, NfaAlign32, NlMsgLength, NlMsgSpace, NfaLength with their wrap-around | masking as div/mod, `lia` | proved |
| C02 | Netlink header codec is a bijection and honours the caller's buffer | Common.v: SerializeNlMsgHdr, SerializeNlMsgHdrBuf, NetlinkMessageToStruct | digits of fixed-width numbers, both byte orders | proved |
| C03 | nfgenmsg and attribute-header codecs round-trip | Common.v: ToWireFormat/ToWireFormatBuf of nfgenmsg, nfattr, NfValue8/16/32; NetlinkMessageToNfGenStruct | as C02; in-place variants write exactly their bytes | proved |
| C04 | Attribute parser returns exactly the requested attributes of a well-formed message | Common.v: NetlinkMessageToNfAttrStruct as a fuelled loop over heap slices | induction over the encoded attribute list against an independent TLV reader (Spec/Netlink.v, Spec/AttrTable.v) | proved |
| C05 | Attribute parser is safe on hostile bytes | same loop on arbitrary bytes | progress measure; divergence = NoFuel for every fuel, by induction; exact outcome: the first bad attribute decides (Spec/Outcome.v) | partial |
| C06 | Kernel error codes survive parsing | Common.v: NetlinkErrMessagetoStruct | digit lemmas, two's complement | proved |
| C07 | IPv4 address/integer conversion | Common.v: IP2int, Int2ip | digit lemmas | proved |
| C08 | Queue configuration requests say what the caller asked for | NfQueue.v: UnbindPf, BindPf, CreateQueue, NfqSetMode, NfqSetQueueMaxLen, NfqDestroyQueue, query/send/recv | symbolic run to the datagram, decoded by Spec/Netlink.v and compared with Spec/NfqSpec.v | proved |
| C09 | SetVerdict2 delivers verdict, id, mark and packet bytes exactly | NfQueue.v: SetVerdict2 over heap slices with iovec gather | symbolic run + decoder | proved |
| C10 | SetVerdict delivers verdict, id and packet bytes exactly | NfQueue.v: SetVerdict | as C09; refutation by a 5-byte packet | partial |
| C11 | A verdict can be issued for every packet | SetVerdict, SetVerdict2 | case analysis on lengths; refutations are universally quantified over the offending lengths | partial |
| C12 | A received packet is delivered with its own id, mark and payload | NfQueue.v: Recv, GetPacketInfo | C04's lemma composed with header codecs and the receive buffer window | proved |
| C13 | A packet without a mark is reported unmarked | same, with the attribute table reused between packets | invariant of the loop; refutation run | partial |
| C14 | Packet id handed to the callback is the id the verdict releases | Recv + SetVerdict/SetVerdict2 | composition of C12 and C09/C10 | proved |
| C15 | Configuration calls succeed exactly when the kernel acknowledges | query of the three packages (NfQueue.v, NfLog.v, Conntrack.v) | symbolic run over an arbitrary kernel reply | proved |
| C16 | CreateAndStartNfQueue sets up in order and releases the socket on failure | CreateAndStartNfQueue, NfqOpen, NfqClose | trace equality by stages, arbitrary kernel | proved |
| C17 | No socket is leaked when opening fails | NfqOpen, NFlogOpen, ct open | descriptor accounting on the trace | partial |
| C18 | Packet loop: one callback per received packet, in order, then close on cancellation | ProcessPackets with arbitrary callbacks and environment | induction on iterations | proved |
| C19 | The packet callback only ever sees received packets | ProcessPackets without error callback | as C18 | partial |
| C20 | Receive path survives arbitrary datagrams | Recv/ProcessPackets on arbitrary datagrams | exact outcome of the attribute parser (C05) + case analysis of the datagram; the asked-for types of a started queue are an invariant | partial |
| C21 | Concurrent verdicts do not mix (SetVerdict) | NfqConc.v: SetVerdict as one-byte memory accesses and system calls, any interleaving | non-interference invariant over schedules; sequential code shown equal to NfQueue.v | proved |
| C22 | Concurrent verdicts do not mix (SetVerdict2) | NfqConc.v: SetVerdict2 | as C21 with one SetVerdict2 goroutine; witness schedule for two | partial |
| C23 | NFLOG configuration requests say what the caller asked for | NfLog.v: NFlogUnbind, NFlogBind, NFlogBindGroup, NFlogSetMode | as C08, induction over groups | proved |
| C24 | Group configuration fails on an unopened handle | same on an unopened handle | direct | partial |
| C25 | Every logged packet is delivered once, in order, with its prefix and addresses | NfLog.v: parseLog, parsePacket | induction over messages and attributes, independent reader in Spec/LogSpec.v | proved |
| C26 | The logged payload is delivered byte for byte | same | as C25; exact description of the payload bytes delivered | partial |
| C27 | NFLOG parsing terminates without crashing on any datagram | same on arbitrary bytes; Spec/LogOutcome.v: how parsing ends, as relations on the octets | Proof/LogOutcome.v: induction on the fuel, each case of the code matched with one rule; determinism by induction; NoFuel for every fuel | partial |
| C28 | ReadLogs keeps reading through ENOBUFS and releases the socket when it stops | NfLog.v: ReadLogs with defer | induction on iterations, arbitrary kernel | proved |
| C29 | BindAndListenForLogs releases the socket on failure | BindAndListenForLogs, NFlogOpen, NFlogClose | trace equality by stages | proved |
| C30 | Conntrack mark update request identifies the flow and carries the mark | Conntrack.v: buildConntrackUpdateRequest, appendMark, ConntrackTableUpdateMark | symbolic run + nested decoder (Spec/CtSpec.v) | proved |
| C31 | Conntrack label update request is well formed | appendProtoInfo, appendLabel, ConntrackTableUpdateLabel | as C30 | partial |
| C32 | Only matching flows are updated and the count is right | checkTuplesInFlow, the two update loops | induction over the flow list | proved |
| C33 | An absent flow is reported as an error | same | as C32 | partial |
| C34 | Each conntrack update uses and releases its own socket | open, query, sendMessage, close | trace analysis | partial |
| C35 | Malformed address strings are handled | net.ParseIP result nil or not | direct | partial |
| C36 | IPv4 packet parsing extracts the header fields on the wire | Packet.v: New, parseIPv4Packet, parseTCP, parseUDP | explicit header destructuring against Spec/Inet.v | proved |
| C37 | IPv4 packet parsing: exactly which inputs are accepted, rejected, or crash | same | exact outcome as a case table | partial |
| C38 | IPv6 packet parsing extracts the header fields on the wire | New, parseIPv6Packet | as C36 | partial |
| C39 | Checksums follow RFC 1071 | Checksum.v: checksum, partialChecksum, finalizeChecksum, folding with fuel | algebra modulo 65535 | proved |
| C40 | Incremental IPv4 checksum update equals recomputation | incCsum16, FixupIPHdrOnDataModify | one's-complement algebra | proved |
| C41 | UpdateIPv4Checksum makes the header valid and touches nothing else | computeIPv4Checksum, VerifyIPv4Checksum, UpdateIPv4Checksum | splice algebra on the heap + C39 | proved |
| C42 | UpdateTCPChecksum makes the segment valid | computeTCPChecksum, VerifyTCPChecksum, UpdateTCPChecksum | as C41, pieces of a segment | partial |
| C43 | Detaching TCP data and attaching it again restores the packet | TCPDataDetach, TCPDataAttach and helpers | window framework (Proof/PktMem.v) | proved |
| C44 | Attaching never damages data already held | TCPDataAttach over aliased slices | append in place or fresh (arbitrary growth) | partial |
| C45 | Sequence/acknowledgement arithmetic stays consistent with the bytes | Increase/DecreaseTCPSeq/Ack | induction over histories | proved |
| C46 | Authentication option detection decides exactly and always terminates | CheckTCPAuthenticationOption as fuelled loop | independent inductive walk of the option list | proved |
| C47 | Reverse-flow packet is the mirror image with valid headers | CreateReverseFlowPacket | window framework | proved |
| C48 | UDP control packets round-trip type and token | UDPTokenAttach, CreateUDPAuthMarker, GetUDPType(FromBuffer), ReadUDPToken | as C47 | proved |
| C49 | UDP data detach/attach | UDPDataDetach, UDPDataAttach | as C47, overlap conditions | partial |
| C50 | IPv6 UDP checksum is valid and never zero | updateUDPv6Checksum, fixupUDPChecksum | as C42 | partial |
| C51 | Flow hash identifies an IPv4 flow | l4FlowHash, net.IP.String, strconv.Itoa (NetIP.v) | injectivity of decimal text and separators | proved |
| C52 | Flow hash identifies an IPv6 flow | same, IPv6 | injectivity of full group lists; collision witness | partial |
| C53 | The flow hash follows the packet | L4FlowHash after edits | induction over histories of calls | partial |
| C54 | ConvertAcktoFinAck yields a data-less FIN/ACK | ConvertAcktoFinAck | window framework | proved |
| C55 | TCP flag rendering | TCPFlagsToStr | all 256 values by bit analysis | proved |
| C56 | System-call wrappers issue each call once | SyscallWrappers.v over an arbitrary raw kernel | case analysis | partial |
| C57 | The end-to-end verdict loop releases every packet unchanged | CreateAndStartNfQueue's loop with the documented accept-all callback | C12, C14, C18 composed by induction on iterations | proved |
| C58 | A delivered packet buffer stays valid | receive buffer windows across iterations | heap invariant | partial |
| C59 | Issuing a verdict leaves the caller's memory alone | append of padding in both verdict calls | frame lemma on the heap | partial |
| C60 | Parsing a packet uses only the packet's own bytes | New reading up to the capacity | every accepted parse is a parse of the extended slice; both directions by exhibiting a second memory | partial |
| C61 | The queue's socket is closed exactly once and not used afterwards | ProcessPackets, StopQueue from callbacks, whole runs from CreateAndStartNfQueue | descriptor automaton on traces; with arbitrary callbacks, an additive count over the run bounds closes by requests (Proof/StopCount.v) | partial |
| C62 | StopQueue destroys the queue and releases its socket | StopQueue | symbolic run | partial |
| C63 | Any history of edits keeps a TCP packet consistent | every mutating call on a TCP packet (Spec/History.v) | invariant over histories | partial |
| C64 | Payload accessors show the payload | PacketView.v/Packet.v read accessors | window framework | partial |
| C65 | SourcePortHash identifies the application's end point | SourcePortHash | injectivity lemmas of C51 | proved |
| C66 | Print shows the packet and changes nothing | PacketView.v: Print, flagsToDir, flagsToStr | symbolic run; memory restored | partial |
| C67 | SetTCPFlags sets the packet's flags | SetTCPFlags, GetTCPFlags | direct | partial |
| C68 | Looking at packets from several goroutines | PacketConc.v: VerifyTCPChecksum, GetTCPBytes as one-byte accesses | non-interference over all interleavings; witness schedules | partial |
| C69 | Message number and subsystem are the two bytes of the type field | NlMsgType, NlMsgSubsysID | div/mod | proved |
| C70 | Verdicts on several queues do not mix | NfqConc.v with several handles | non-interference | proved |
| C71 | The flow named by the address strings is the one updated | AddrText.v: net.ParseIP for dotted decimal; the address-string entry points | parser/printer round trip; C30 | partial |
| C72 | The log callback is told the packet's IP version | parsePacket, parsePayload on IPv6 headers | header facts; counter-theorem for every IPv6 payload | partial |
| C73 | A datagram larger than the log reader's buffer | ReadLogs with the 65536-byte buffer | message walk up to the cut; divergence of the walk on 1..15 bytes | partial |
| C74 | PacketToStringTCP describes the packet | PacketText.v: PacketToStringTCP, the IP header text arbitrary | hex/decimal numerals read back; unique split at the last non-hex letter | proved |
| C75 | What is set is what is read and sent | Accessors.v | direct + C03 | proved |
| C76 | Listing the conntrack table | CtTable.v: ConntrackTableList over an arbitrary library answer | case analysis; C32 | partial |
| C77 | The log socket is closed exactly once and not used afterwards | BindAndListenForLogs followed by ReadLogs; NFlogClose in between | C28's turns shown to stay on the socket; descriptor accounting; counter-theorem for every kernel | partial |
| C78 | Receiving goes on while verdicts are issued | NfqLoopConc.v: the loop's receive buffer written byte by byte beside the verdict code of NfqConc.v | non-interference (C21's lemma); counter-schedule for every next datagram | partial |
| C79 | A mutex around SetVerdict2 makes concurrent verdicts safe | NfqLock.v: the code of NfqConc.v/NfqLoopConc.v between Lock and Unlock of one caller-owned mutex | non-interference up to one array guarded by the mutex: every critical section fills the header buffer before it reads it; progress by counting the instructions left | proved |
| C80 | Any history of edits keeps a UDP packet consistent | Spec/UdpHistory.v: the calls, when each is permitted, and a ledger computed from the octets attached | Proof/UdpHistory.v: induction over the history, one lemma per call from the single-call theorems (C47-C49); refutation by a two-call history | partial |
| C81 | Every packet the kernel queues reaches the callback exactly once, in order | Spec/Fifo.v: the socket as a FIFO queue of datagrams (a ghost function of the history), taken and waiting datagrams | Proof/Fifo.v: induction over the turns of the loop with the one-turn lemmas of LoopFacts/LoopProps; the set-up is shown to take exactly five datagrams; refutation by a scripted kernel that delivers a packet after queue creation | partial |
| C82 | A configuration call reports what the kernel answered to it | Spec/Fifo.v as for C81; the answer is the datagram the kernel appends when the request is sent | Proof/Fifo.v request_on_fifo: every recorded answer is the environment's, then cfg_request; refutation by a scripted kernel | partial |
| C83 | Version, lengths and the test packet are reported as they are | accessors of Model/Packet.v and Model/PacketView.v | case analysis on New (PktParse), agreement invariant of C40/C63, computation for the test packet | partial |
| C84 | Every log message is shown exactly once, in order | environments that are FIFO queues (Spec/Fifo.v) with Model/NfLog.v | every recorded answer is the environment's (answers_*), induction on the history for what is taken, exact turns of C28; concrete kernel scripts for the refutations | partial |
| C85 | StopQueue called while ProcessPackets runs | Model/NfqStop.v: the loop and StopQueue cut at their system calls, proved equal to the sequential model when run together; a process state with the socket as a queue; the step relation | Proof/StopConc.v: invariant over all schedules; abandoned states closed under every step; computed schedules for the shared buffer | partial |
| C86 | Cancelling the context while the loop waits | Model/NfqStop.v: as C85; Cancel is a step of its own | Proof/StopConc.v: cancel_steps, deaf_steps by induction on the schedule | partial |
| C87 | Replacing and dropping the detached pieces | Model/Packet.v, Model/PacketView.v: the accessors and setters | Properties/P_PktPieces.v: direct, with the lengths of valid slices | partial |
| C88 | The conntrack examples mark the flows they name | Model/Examples.v: the two mains, with the library's listings as arbitrary functions | C32 for the tuple re-read from its own text (C71); C88_* in P_Examples.v | partial |
| C89 | The nfqueue example passes every packet | Model/Examples.v: the callback and the calls of main | instance of C57 | proved |
| C90 | UDPFlowCreate makes the flows asked for and leaves nothing open | Model/Examples.v: the loop over an arbitrary network library (answers depend on the whole history) | induction over the flows | partial |
| C91 | Rewritten packet reaches the kernel intact | Spec/ClientSpec.v defines the client in the same monad; Spec `extended` relates the bytes of the two packets | composition of recv_packet, New_v4/New_v6, attach_spec, update_tcp and SetVerdict2_run (Proof/Client.v) | proved |
| C92 | The error callback's data tells whether there is a message to look at | the error callback's second argument as an interface holding a pointer (IfaceNil / IfaceGen) | exact description of each error callback from the turns of the loop (C18), plus a computed run with both kinds | partial |
| C93 | Received packets and the notification channel | The handle's field NotificationChannel as the list of packets sent on it; every exported method as a handle_call, a history as a list of them (Spec/HandleSpec.v). | A Hoare-style preservation lemma for each method, then induction on the history. | partial |
| C94 | A handle operates only on descriptors it opened | Histories as lists of method calls (Spec/HandleSpec.v, Spec/Descriptors.v); the trace of interactions with the kernel. | An invariant (the handle's descriptor, if any, was returned by a socket call in the trace) kept by each method; induction on the history. | proved |
| C95 | No use of a descriptor after it was closed | The methods run one after the other on the model's state. | The run of a configuration call from an arbitrary state (C08), applied after the close. | partial |
| C96 | A queue handle leaves alone memory it was not given | Memory as a list of arrays with slices as windows; histories of method calls (Spec/HandleSpec.v, Spec/FrameSpec.v). | A Hoare-style invariant: the handle's buffers, its attribute table and every slice derived from them lie in other arrays; induction on the history. | proved |
| C97 | Log handles and conntrack updates never write to the program's memory | Memory as a list of arrays; histories as lists of calls (Spec/Descriptors.v, Spec/CtHandle.v). | A Hoare-style invariant on memory alone, polymorphic in the handle's state: every slice written is one allocated by the call itself; induction on the history (Proof/LogFrame.v). | proved |
| C98 | Conntrack updates use only open descriptors and leave none open | Histories as lists of update calls (Spec/CtHandle.v); open descriptors read off the trace. | Each update's events form a whole session (open, one request, close) or a failed open; the two predicates compose under appending traces (Proof/CtHistory.v). | partial |
| C99 | A packet message's missing parts are not invented | The packet loop with its attribute table (Model/NfQueue.v); where an attribute's value was in an earlier message (Spec/StaleSpec.v). | An invariant tying each slot of the table to the last message that carried the attribute, over all turns of the loop (Proof/StaleWhere.v). | partial |
| C100 | Parts of one program do not use each other's sockets | schedules of interactions, each part's projection a prefix of a run of the sequential model under some kernel answers | each part uses only descriptors it has open (session shape of its trace); an ownership invariant over the schedule, by induction, from the kernel's not reusing open descriptors | partial |
| C101 | Editing a packet leaves all other memory alone | packets over an explicit heap of arrays; append in place when the capacity allows it, in a new array otherwise (Go/Heap.v) | an invariant 'no slice of the packet reaches the byte, and the byte is as it was', kept by every call and so by every history (Proof/PktFrame.v) | proved |
| C102 | A client that answers UDP packets works end to end | the receive path, the packet library and the verdict path over one heap; a client program written with them (Spec/UdpClientSpec.v, answer_udp) | the receive, parse, reverse, attach and verdict lemmas composed; validity of the queue's slices is carried through (Proof/UdpClient.v) | proved |
| C103 | A client's verdicts answer its packets in turn | the client's loop serve (Spec/UdpServeSpec.v) over the model's Recv, GetPacketInfo, New, CreateReverseFlowPacket, UDPTokenAttach and SetVerdict2 | induction over the number of messages: each step leaves the queue ready and the token, outside the receive buffer and the verdict header, as it was (keeps, Proof/UdpClient.v) | proved |
| C104 | The machine's byte order is known before it is needed | the package variable native as state, nil at start (Model/ByteOrder.v): nfqueueinit, GetPacketInfo, the verdict header and request bytes over it; histories of uses; goroutines inside nfqueueinit as two steps each, interleaved by any schedule | induction over histories and over schedules; before the first queue an exact description of which uses panic; counterexamples for the two false parts | partial |

Every property of properties.jsonl is expressed in the model; none is `not_applicable`.

## 3. Trusted base

* Coq 8.16.1's kernel (and its OCaml runtime). No plugin, no extraction, no native_compute; `vm_compute` is used on
  closed examples and small closed facts and is part of the kernel.
* `Print Assumptions` follows every theorem in Properties/*.v and answers **"Closed under the global context"** for
  each one of them: no axiom is used, neither of the standard library nor ours. No `Admitted`, `admit`, `Axiom`,
  `Parameter`, section-less `Variable`/`Hypothesis`, functor, module type or kernel switch occurs.
* The whole-library scan of vcheck lists seven constants of `Coq.ssr.ssrunder` (standard library):
  `Under_rel.Over_rel`, `Under_rel.Under_rel_from_rel`, `Under_rel.over_rel`, `Under_rel.over_rel_done`,
  `Under_rel.Under_rel`, `Under_rel.Under_relE`, `Under_rel.under_rel_done`. They are the opaque module members loaded
  with `ssreflect` by the standard library's `lia`/`Zify` dependencies; no theorem depends on them (see above).
* Only the Coq standard library is required (ZArith, List, Lia, String, Bool, Arith, Permutation and the like).
* The correspondence between /repo and Model/*.v is by reading: the citations (file:lines) in Model/*.v are what to
  compare. Nothing was extracted from or run against the Go code.

## 4. Modelled code

| Go source | Coq file | functions |
|-----------|----------|-----------|
| common/helpers.go | Model/Common.v | NlMsgType, NlMsgSubsysID, NlMsgAlign, NfaAlign, NfaAlign32, NlMsgLength, NlMsgSpace, NfaLength, BuildNlMsgHeader, BuildNfgenMsg, BuildNfAttrMsg, BuildNfNestedAttrMsg, BuildNfAttrWithPaddingMsg, SerializeNlMsgHdr(Buf), ToWireFormat/ToWireFormatBuf/Length of NfqGenMsg, NfAttr, NfValue8/16/32, NetlinkMessageToStruct, NetlinkMessageToNfGenStruct, NetlinkMessageToNfAttrStruct, NetlinkErrMessagetoStruct, NativeEndian (as the parameter), IP2int, Int2ip |
| common/accessors.go | Model/Common.v, Model/Accessors.v | setters and getters of the four value types and of the nfgen header, SetNetlinkData, GetNetlinkData |
| common/packet/packet.go | Model/Packet.v, Model/PacketView.v | every function |
| common/packet/helpers.go | Model/Packet.v, Model/Checksum.v, Model/PacketView.v | every function |
| common/packet/types.go | Model/PacketView.v, Model/Packet.v | flagsToDir, flagsToStr, tcpFlagsToStr, TCPFlagsToStr |
| common/syscallwrappers/syscalls.go | Model/SyscallWrappers.v | Bind, Socket, SetsockoptInt, Close, Recvfrom, Sendto, Syscall |
| nfqueue/helpers.go | Model/NfQueue.v | GetPacketInfo, all ToWireFormat(Buf)/Length, QueueID |
| nfqueue/nfqueue.go | Model/NfQueue.v | NewNFQueue, CreateAndStartNfQueue, NfqOpen, query, send, recv, close, UnbindPf, BindPf, CreateQueue, NfqSetMode, NfqSetQueueMaxLen, SetVerdict, SetVerdict2, sendmsg, Recv, ProcessPackets, NfqClose, StopQueue, NfqDestroyQueue |
| nfqueue/nfqueue.go, helpers.go | Model/ByteOrder.v | nfqueueinit and the package variable native (nil at start, written by the first NewNFQueue), what reads it; elsewhere the variable is taken to hold the machine's order, as it does once a queue exists (C104) |
| the same, concurrently | Model/NfqConc.v | SetVerdict, SetVerdict2 (any number of goroutines, one or several queues) |
| the same, concurrently | Model/NfqLoopConc.v, Model/NfqLock.v, Model/NfqStop.v | the receive loop beside verdicts, a caller's mutex, StopQueue and cancellation beside the loop |
| nfqueue/examples/example.go, conntrack/examples/*, conntrack/test_utils.go | Model/Examples.v | passVerdict, passNetVerdict, the calls of main, both conntrack mains, UDPFlowCreate |
| nflog/helpers.go, sockets.go, nflog.go | Model/NfLog.v | every function but GetNFloghandle, getRcvBufSize, getLocalAddress |
| conntrack/conntrack.go, sockets.go | Model/Conntrack.v, Model/AddrText.v | checkTuplesInFlow, buildConntrackUpdateRequest, appendMark, appendLabel, appendProtoInfo, sendMessage, open, query, send, recv, close, ConntrackTableUpdateMark, ...ForAvailableFlow, ConntrackTableUpdateLabel, ConntrackTableList, ConntrackTableFlush |
| packet reads, concurrently | Model/PacketConc.v | VerifyTCPChecksum, GetTCPBytes (any number of goroutines) |

Standard-library behaviour written down in the model (from the Go documentation and sources, trusted): net.IP.String,
net.IP.Equal, net.IP.To4 on 4- and 16-byte addresses, strconv.Itoa, fmt %d/%s/%v of the log line, net.ParseIP for
dotted decimal (IPv6 text goes to an arbitrary function), encoding/binary Read/Put/Uint, copy, append, bytes.Equal,
syscall.ParseNetlinkMessage is not used by the code, defer, range over a slice, integer conversions.

Kernel behaviour is *not* modelled beyond the type of each call's result: `recvfrom` returns at most the requested
number of bytes; which bytes, when, and which errors is arbitrary.

## 5. Not modelled

* Mocks, tests, build-tag stubs (`interfaces_unspec.go`), printing and sleeping in the examples' mains.
* `NewSyscalls`, `conntrack.NewHandle`, `getRcvBufSize`, `getLocalAddress`, `GetNFloghandle`: constructors and
  getters of stored values with no further behaviour; `setSockHandle`: used by tests only.
* The vishvananda/netlink library behind ConntrackTableList/Flush: an arbitrary answer.
* The `mark string` argument and the metadata fields of `Packet`: stored, never used.
* Time, garbage collection, weak memory (data races are modelled as interleavings of byte accesses under sequential
  consistency; a real Go data race may do worse, so the refutations stand and the race-freedom results are about
  goroutines that touch disjoint bytes).
* zap logging: only the content of Print's lines, not their transport.

## 6. Simplifications

* `uintptr`/`unsafe` in SetVerdict's iovecs: an iovec is a window of the heap, read when the system call is made.
* `map[int]*NfAttrResponsePayload` is a finite table from attribute type to slice, with in-place update of the entry.
* Callbacks are arbitrary lists of actions chosen by the environment from everything they have seen
  (giving verdicts, stopping the queue, nothing); they run to completion before the loop goes on. Verdicts from
  other goroutines are the subject of the concurrent model.
* `context.Done` is polled at the point the code polls it and answers as the environment decides; once done it
  stays done only where a theorem assumes it.
* Integers of Go type `int` are 64 bits.
* Error values are represented by numbers or constants, not texts.

## 7. Findings

The refuted halves of the properties are behaviours of the code at the pinned commit, each proved on the model:

* **C05** Attribute parser is safe on hostile bytes: False of the code: an attribute with declared length 0 and a type nobody asked for makes it loop for ever, one with length < 4 and a requested type crashes it. Proved: exactly which byte strings it returns for, which crash it and which hold it for ever; with no attribute header declaring a length below 4 it always returns, within len/4+1 iterations. (`C05_hostile_bytes_refuted`)
* **C10** SetVerdict delivers verdict, id and packet bytes exactly: False of the code: the attribute length is rounded up, so the re-injected packet is the original followed by up to three zero bytes. Proved: payload = packet ++ zero padding to a multiple of 4, hence exact iff 4 | len. (`C10_SetVerdict_changes_packet_refuted`)
* **C11** A verdict can be issued for every packet: False of the code: an empty packet crashes; packetLen above 65531 wraps the 16-bit attribute length, and SetVerdict on 65533 to 65535 bytes sends a well-formed message replacing the packet by an empty one. Proved exactly for every length up to 65535: SetVerdict2 hands over the packet given if and only if it has at most 65531 bytes, SetVerdict if and only if its length is a multiple of four up to 65528. (`C11_empty_packet_refuted`, `C11_SetVerdict2_oversize_refuted`, `C11_SetVerdict_near_64k_refuted`, `C11_SetVerdict_oversize_refuted`)
* **C13** A packet without a mark is reported unmarked: False of the code: the attribute table is reused, so the mark is read from wherever the previous packet's mark lived in the receive buffer. Proved: it holds until the first marked packet, and after that, for every history, exactly which bytes of its own message an unmarked packet is shown as marked with. (`C13_stale_mark_refuted`)
* **C17** No socket is leaked when opening fails: False of the code: when bind fails the freshly created socket is never closed, in all three packages. (`C17_no_leak_refuted`)
* **C19** The packet callback only ever sees received packets: False of the code: with no error callback registered, a failed receive invokes the packet callback with id 0, mark 0 and an empty buffer. (`C19_failed_receive_reaches_packet_callback_refuted`, `C19_failed_receive_crashes_documented_callback_refuted`)
* **C20** Receive path survives arbitrary datagrams: False of the code: datagrams shorter than 20 bytes crash it. Proved: exactly which datagrams a receive survives, which crash it and which make it never return; the loop survives every run with a kernel that sends whole messages. (`C20_short_datagram_crashes_refuted`)
* **C22** Concurrent verdicts do not mix (SetVerdict2): False of the code: the header is assembled in a buffer shared by the whole handle; a two-goroutine schedule sends one caller's verdict and id with the other caller's packet. Proved: it holds for every schedule when only one goroutine uses SetVerdict2, whatever the others do with SetVerdict. (`C22_concurrent_SetVerdict2_refuted`)
* **C24** Group configuration fails on an unopened handle: False of the code: they return nil without sending anything, unlike NFlogBind. (`C24_group_calls_need_open_refuted`)
* **C26** The logged payload is delivered byte for byte: False of the code: the last byte of every netlink message is dropped before parsing, so a payload that ends the message and whose length is a multiple of 4 is delivered with its last byte replaced by 0. Proved: exact whenever the payload is not the last attribute or its length is not a multiple of 4; otherwise exact except for that byte. (`C26_refuted`)
* **C27** NFLOG parsing terminates without crashing on any datagram: False of the code: 1..15 trailing bytes or a message with length 0 make it loop for ever; a packet message with length 1..16 crashes it. Proved: for every byte string exactly what the callback is shown and how parsing ends - finished, error, crash or never - as a deterministic relation on the bytes; in particular a message whose declared length exceeds the remaining bytes is reported as truncated and not delivered, after the preceding messages were delivered. (`C27_refuted`)
* **C31** Conntrack label update request is well formed: False of the code for TCP: the two TCP flag attributes declare length 4 although two data bytes follow, so the nested TCP block does not decode. Proved for every non-TCP protocol. (`C31_tcp_label_request_refuted`)
* **C33** An absent flow is reported as an error: False of the code: it returns 0,nil; and after a failure it returns 0 although earlier flows were updated. (`C33_absent_flow_reported_refuted`, `C33_count_after_failure_refuted`)
* **C34** Each conntrack update uses and releases its own socket: The last part is false of the code: failure to open crashes. (`C34_open_failure_is_an_error_refuted`)
* **C35** Malformed address strings are handled: False of the code: the calls panic. Exact: which texts name an IPv4 address, and that each update call panics before any system call when and only when one of the two texts names none (and the flow list, where there is one, is not empty). (`C35_malformed_address_handled_refuted`)
* **C37** IPv4 packet parsing: exactly which inputs are accepted, rejected, or crash: The last sentence is false of the code: the exact crash conditions are proved. (`C37_never_crashes_refuted`)
* **C38** IPv6 packet parsing extracts the header fields on the wire: Last clause false of the code: they crash. (`C38_short_input_rejected_refuted`)
* **C42** UpdateTCPChecksum makes the segment valid: False of the code when the bytes still in the buffer or the attached options have odd length and more bytes are attached after them. Proved for pieces of every length: what is written is the checksum of the pieces each padded to an even length, VerifyTCPChecksum accepts it, and the segment sent is valid exactly when the 16-bit words of the pieces starting at an odd octet sum to a multiple of 257 - always, when both are even. (`C42_update_tcp_checksum_refuted`)
* **C44** Attaching never damages data already held: False of the code: when options were detached from the middle of the caller's array, appending new options overwrites the detached data in place, so data taken from GetTCPData is corrupted. Proved: exactly which bytes are emitted for data anywhere in memory, that they are right if and only if every byte the new options store over the data is the byte already there, and that it holds when the options were dropped or did not come from the packet. (`C44_own_data_refuted`, `C44_attach_keeps_all_refuted`)
* **C49** UDP data detach/attach: False of the code when the data given is the packet's own payload, e.g. from GetUDPData, and a header is prefixed: appending the header in place overwrites the data before it is appended. Proved: exactly which payload results for header and data anywhere in memory, that it is right if and only if every header byte stored over the data is the byte already there - in particular whenever they do not overlap. (`C49_own_payload_refuted`, `C49_detach_attach_refuted`)
* **C50** IPv6 UDP checksum is valid and never zero: The last clause is false of the code: a sum of 0 is written as 0. Exact: what is written is valid and is the value the sum gives, so 0 exactly when the sum gives 0. (`C50_ipv6_checksum_never_zero_refuted`)
* **C52** Flow hash identifies an IPv6 flow: False of the code: two different IPv6 flows can have the same hash text (zero groups shift between the two addresses). Exact: the hashes are equal when and only when the ports are and the two addresses' texts joined by a colon are the same text; equal for equal flows and for the reverse hash of the opposite direction, and injective when either address pair is equal or has no zero run. (`C52_flow_hash_ipv6_refuted`)
* **C53** The flow hash follows the packet: False of the code: the cached hash of the original direction is returned. Proved for every history of calls: the hash is that of the shown flow after an even number of reversals and of the opposite flow after an odd number. (`C53_hash_follows_refuted`, `C53_hash_follows_example_refuted`)
* **C56** System-call wrappers issue each call once: False of the code: bind, setsockopt, close and sendto are issued a second time after a failure, and the second outcome is what the caller sees. Proved: exact behaviour - nil iff the first or the second attempt succeeded, one attempt after success, two after failure. (`C56_called_once_refuted`)
* **C58** A delivered packet buffer stays valid: False of the code: the buffer is a window into the receive buffer that the next receive overwrites. (`C58_buffer_reused_refuted`)
* **C59** Issuing a verdict leaves the caller's memory alone: False of the code when the packet's slice has room for the padding. Exact: a verdict call leaves the caller's memory unchanged when and only when the slice has no room for the padding behind the packet or the bytes there are zero already. (`C59_verdict_overwrites_neighbours_refuted`)
* **C60** Parsing a packet uses only the packet's own bytes: False of the code: header fields are sliced up to the capacity, so an unvalidated packet that ends before its transport header is accepted with ports taken from whatever follows in the buffer - e.g. the previous packet. Proved exactly: every field is the one found in the packet followed by the memory behind it; a UDP packet's ports are its own if and only if it holds four bytes of UDP header, a TCP packet's ports, numbers, offset and flags always are and its checksum if and only if the packet reaches it, IPv6 addresses if and only if the packet holds the IPv6 header. (`C60_reads_only_the_packet_refuted`)
* **C61** The queue's socket is closed exactly once and not used afterwards: Proved when the callbacks do not stop the queue. False of the code once StopQueue is used: it closes the socket but keeps the number, so the loop uses and closes the number again. Proved with any callbacks: the loop works on no other socket and closes its own at most once per request sent on it plus once when cancelled, and the bound is reached. (`C61_closed_once_refuted`)
* **C62** StopQueue destroys the queue and releases its socket: The last part is false of the code: when the kernel refuses, or the exchange fails, it returns the error and leaves the socket open. Proved: the request, the outcome, and that the socket is closed straight after a successful exchange and untouched after a failed one. (`C62_stop_closes_refuted`)
* **C63** Any history of edits keeps a TCP packet consistent: The last part is false of the code for every order of calls: attaching twice counts both lengths. Proved for orderly histories - attach once, after what was detached has been dropped or is being re-attached - and exactly for every history: the length is right if and only if what was attached and what the packet still carries have the same length modulo 65536. (`C63_total_is_bytes_sent_refuted`)
* **C64** Payload accessors show the payload: The last two parts are false of the code: New accepts a data offset pointing beyond the packet and ReadTCPData then panics; and the emptiness test looks at what was parsed, not at what the packet carries after an edit. Proved: the exact bytes, the exact crash condition, and emptiness as parsed. (`C64_empty_refuted`, `C64_reads_never_crash_refuted`)
* **C66** Print shows the packet and changes nothing: The expected acknowledgement is wrong for every segment with FIN. Proved: all the rest, and its exact value. (`C66_expected_ack_refuted`)
* **C67** SetTCPFlags sets the packet's flags: The first part is false of the code for every packet and every change: only the cached field changes, the bytes sent keep the old flags. Proved: what changes and what does not. (`C67_set_flags_refuted`)
* **C68** Looking at packets from several goroutines: False of the code when goroutines share a packet: verification clears the packet's checksum and puts it back, so two verifications can erase the checksum for good, one of them can be told that a right checksum is wrong, and a concurrent GetTCPBytes can return the packet without it. Proved for any number of goroutines and calls, interleaved byte access by byte access in any way, when no goroutine looks at a packet another one verifies. (`C68_same_packet_refuted`, `C68_wrong_answer_refuted`, `C68_bytes_refuted`)
* **C71** The flow named by the address strings is the one updated: False of the code for IPv6: whatever two IPv6 addresses are given, the flow updated is the IPv4 one between the addresses made of their last four bytes. Proved: for IPv4 addresses written in dotted decimal. (`C71_ipv6_refuted`, `C71_ipv6_marks_ipv4_flow_refuted`)
* **C72** The log callback is told the packet's IP version: False of the code for IPv6: every IPv6 packet is reported with Version 4, next to its own IPv6 addresses. Proved: for IPv4 packets the version is right. (`C72_ipv6_version_refuted`)
* **C73** A datagram larger than the log reader's buffer: False of the code in two cases: a cut that leaves 1 to 15 bytes of a message header makes the reader loop for ever without reporting anything, and a cut exactly between two messages loses the rest without a report. Proved: when at least the 16 bytes of the header are left. (`C73_cut_in_header_refuted`, `C73_cut_between_messages_refuted`)
* **C76** Listing the conntrack table: False of the code: an empty table is reported as an error and only IPv4 flows are ever listed. Proved: a non-empty IPv4 listing is passed on unchanged, failures are reported, and listing followed by a mark update touches exactly the matching flows. (`C76_empty_table_refuted`, `C76_other_families_refuted`)
* **C77** The log socket is closed exactly once and not used afterwards: Proved when the application leaves the closing to the reader. False of the code once NFlogClose is called while the reader runs: the reader goes on receiving from the closed number and closes it a second time. (`C77_closed_once_refuted`)
* **C78** Receiving goes on while verdicts are issued: False of the code when the delivered buffer itself is handed to another goroutine: for every next datagram some schedule makes that verdict carry the next datagram's bytes. Proved for goroutines working on copies, one goroutine using SetVerdict2. (`C78_delivered_buffer_refuted`)
* **C80** Any history of edits keeps a UDP packet consistent: The last part is false of the code: UDPDataDetach leaves the IP length alone and UDPTokenAttach adds to it, so after detach and token attach the IP length still counts the detached data. Proved: the IP length exceeds the actual length by exactly what was detached since the last data attachment or reversal, the IPv4 header checksum stays right, the UDP fields are right unless the last edit was a detachment, and the packet is complete whenever a data attachment or reversal followed the last detachment. (`C80_complete_refuted`)
* **C81** Every packet the kernel queues reaches the callback exactly once, in order: False of the code: a packet that arrives between the creation of the queue and the end of the set-up is taken for the answer to the next set-up request and lost: it is never shown and never gets a verdict. Proved: it holds for every run, callback that does not stop the queue and arrival schedule when packets only arrive after the last set-up answer was sent. (`C81_packet_during_setup_lost_refuted`)
* **C82** A configuration call reports what the kernel answered to it: False of the code when a packet is waiting on the socket: any message that is not an error is taken for the acknowledgement, so StopQueue returns nil although the kernel refused it. Proved: it holds for every configuration call when nothing is waiting. (`C82_refused_request_reported_as_done_refuted`)
* **C83** Version, lengths and the test packet are reported as they are: The last part is false of the code for L4FlowHash: the test packet's is empty for every flow. Proved: addresses, ports, SourcePortHash and the reverse flow hash. (`C83_test_packet_flow_hash_refuted`)
* **C84** Every log message is shown exactly once, in order: False of the code: a log message that arrives between the binding of the first group and the end of the set-up is taken for the answer to the next request: its packets are never shown, and a refusal of a later request is skipped by the reader and never reported. Proved: for every run in which the answers to the set-up requests come first. (`C84_log_during_setup_lost_refuted`, `C84_refusal_unreported_refuted`)
* **C85** StopQueue called while ProcessPackets runs: The counting part is proved for every schedule; that StopQueue returns, that it reports a refusal it received, and that a packet the loop took is shown as it is are refuted: the loop can take the answer, after which StopQueue waits for ever in every continuation, and the two receive into one buffer. (`C85_StopQueue_waits_for_ever_refuted`, `C85_packet_overwritten_refuted`, `C85_refusal_overwritten_refuted`)
* **C86** Cancelling the context while the loop waits: Proved: at most one more, none if it was not already waiting, and at its next look at the context it closes and returns; refuted: that it returns - a loop blocked in its receive stays there in every continuation in which no datagram arrives. (`C86_cancelled_loop_waits_refuted`)
* **C87** Replacing and dropping the detached pieces: The last part is false of the code, which does not touch the length: proved that it stays true exactly when a replacement is as long as what it replaces and nothing is dropped. (`C87_length_false_refuted`)
* **C88** The conntrack examples mark the flows they name: Partial: the first entry is marked exactly when its addresses and ports are not translated; a translated first entry is left alone and 0 is printed without error; on an empty or unreadable table, or one that has become empty, the program panics. (`C88_first_entry_translated_refuted`, `C88_empty_table_refuted`, `C88_table_emptied_refuted`)
* **C90** UDPFlowCreate makes the flows asked for and leaves nothing open: Partial: a failed send goes unnoticed: nil does not mean that the datagrams were sent. (`C90_failed_write_unnoticed_refuted`)
* **C92** The error callback's data tells whether there is a message to look at: False of the code: the data is never nil - when nothing was received or the kernel reported an error it is a non-nil interface holding a nil *NfqGenMsg, so the usual nil test passes and using it panics; what is given in each case is proved exactly. (`C92_data_is_never_nil_refuted`)
* **C93** Received packets and the notification channel: The property a user expects, that a received packet appears on the channel, is false of the code; the theorem states the opposite for every history. (`C93_notification_channel_silent_refuted`)
* **C95** No use of a descriptor after it was closed: False: closing does not clear the descriptor. After NfqClose or NFlogClose every configuration call still sends its request on the closed number, which the operating system may have given to another file of the program; what holds is C94. (`C95_queue_use_after_close_refuted`, `C95_log_use_after_close_refuted`)
* **C98** Conntrack updates use only open descriptors and leave none open: The last part is false after a failed bind: the descriptor of that socket is never closed, and the call panics. It is proved for all histories without a failed bind. (`C98_failed_bind_leaks_refuted`)
* **C99** A packet message's missing parts are not invented: False: the attribute table is never cleared. As long as no message has carried a payload every packet is shown with a buffer of 76800 bytes; afterwards with as many bytes as the last payload had, taken from its own message at the place where that payload was; the id likewise. The theorems say exactly this for every run. (`C99_stale_payload_refuted`, `C99_stale_id_refuted`, `C99_no_payload_yet_refuted`)
* **C100** Parts of one program do not use each other's sockets: False of the code for a queue whose callback stops it: the loop later closes the number again, and by then it may be another part's socket. Proved: for queues that are not stopped from a callback, all log listeners and all updates. (`C100_stopped_queue_closes_anothers_socket_refuted`)
* **C104** The machine's byte order is known before it is needed: False: nfqueue keeps the order in a package variable that is nil until the first NewNFQueue. Before that, GetPacketInfo on any message with a packet header, NfqMsgVerdictHdr.ToWireFormat and requests on the socket of an NfQueue that was not made by NewNFQueue panic; and concurrent first calls of NewNFQueue write the variable in a data race. After the first queue every answer is right, in every history; and under sequential consistency every interleaving of creations leaves the variable at the machine's order, never back at nil. (`C104_every_use_right_refuted`, `C104_creation_race_free_refuted`)

## 8. Testing the theorems

`seeded/LOG.jsonl` records, one line per attempt, the edits made to a scratch copy of Model/*.v, the claim each edit
breaks, the theorems that stopped proving, and what was tightened when an edit survived.
