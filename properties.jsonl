{"id": "C01", "title": "4-byte alignment helpers round up, and exactly where they wrap", "statement": "NlMsgAlign, NfaAlign, NfaAlign32 (and nflog's NfaAlign16) return the least multiple of 4 that is >= their argument whenever that multiple is representable in the result type; for the three largest arguments of the type (and only those) the result wraps to 0. NfaLength/NlMsgLength/NlMsgSpace add the 4/16-byte header in the same way.", "quantifier": "every uint16 / uint32 argument", "why_tests_cant": "2^32 arguments; the wrap at the top of the type is precisely the case sampled tests never contain", "anchors": ["common/helpers.go:NlMsgAlign,NfaAlign,NfaAlign32,NlMsgLength,NlMsgSpace,NfaLength", "nflog/helpers.go:NfaAlign16"]}
{"id": "C02", "title": "Netlink header codec is a bijection and honours the caller's buffer", "statement": "Serialising any netlink header and parsing the bytes back yields the same header and the untouched remaining bytes, on little- and big-endian machines; the buffer-filling variant writes the same 16 bytes, returns 16 and leaves all later bytes of the caller's buffer unchanged. The parser rejects exactly the inputs shorter than 16 bytes, with an error, and never crashes.", "quantifier": "every header value, every trailing payload, every input byte string, both endiannesses", "why_tests_cant": "round trip over 2^128 headers and every payload length", "anchors": ["common/helpers.go:SerializeNlMsgHdr,SerializeNlMsgHdrBuf,NetlinkMessageToStruct,NativeEndian"]}
{"id": "C03", "title": "nfgenmsg and attribute-header codecs round-trip", "statement": "The nfgen message written for any family/version/resource id parses back to the same three values with the rest of the bytes untouched (resource id big endian); attribute headers and the 8/16/32-bit values are laid out as length, type (native) and big-endian value zero-padded to 4 bytes, and the *Buf variants write exactly those bytes in place.", "quantifier": "every field value, every trailing byte string, every destination buffer, both endiannesses", "why_tests_cant": "unbounded payloads; tests fix one family/queue", "anchors": ["common/helpers.go:NfqGenMsg.ToWireFormat,ToWireFormatBuf,NfAttr.ToWireFormat,NfValue8,NfValue16,NfValue32,NetlinkMessageToNfGenStruct"]}
{"id": "C04", "title": "Attribute parser returns exactly the requested attributes of a well-formed message", "statement": "For every sequence of well-formed attributes, parsing fills each requested attribute with precisely the payload bytes of its last occurrence in the message, leaves the other requested attributes as they were, ignores every attribute that was not requested (including types >= 11), and reports no error and no leftover.", "quantifier": "every list of attributes (any number, any types, any payload sizes up to 65531), every set of requested types", "why_tests_cant": "unbounded lists of attributes with arbitrary padding", "anchors": ["common/helpers.go:NetlinkMessageToNfAttrStruct"]}
{"id": "C05", "title": "Attribute parser is safe on hostile bytes", "statement": "For every byte string the attribute parser returns (an error or a result), never crashes and never loops, and every payload it hands out lies inside the input. (False of the code: an attribute with declared length 0 and a type nobody asked for makes it loop for ever, one with length < 4 and a requested type crashes it. Proved: exactly which byte strings it returns for, which crash it and which hold it for ever; with no attribute header declaring a length below 4 it always returns, within len/4+1 iterations.)", "quantifier": "every byte string", "why_tests_cant": "termination and absence of crashes over all inputs", "anchors": ["common/helpers.go:NetlinkMessageToNfAttrStruct"]}
{"id": "C06", "title": "Kernel error codes survive parsing", "statement": "Parsing the body of a netlink error message gives back exactly the signed 32-bit errno the kernel wrote, whatever follows it (also when the echoed header is cut short), and crashes only if fewer than 4 bytes are present.", "quantifier": "every int32 error code, every trailing byte string, both endiannesses", "why_tests_cant": "2^32 codes and arbitrary truncation points", "anchors": ["common/helpers.go:NetlinkErrMessagetoStruct"]}
{"id": "C07", "title": "IPv4 address/integer conversion", "statement": "Int2ip followed by IP2int is the identity on uint32; IP2int of a 4-byte address and of its 16-byte (v4-in-v6) form agree and equal the big-endian value; conversely Int2ip(IP2int a) is a for every 4-byte address.", "quantifier": "every uint32 and every 4-byte address", "why_tests_cant": "2^32 values", "anchors": ["common/helpers.go:IP2int,Int2ip"]}
{"id": "C08", "title": "Queue configuration requests say what the caller asked for", "statement": "Every configuration call (bind/unbind protocol family, create queue, set copy mode, set max length, destroy queue) puts on the socket exactly one datagram that an independent netlink decoder reads as one NFQUEUE config request with REQUEST|ACK flags, the right queue number, exactly one attribute of the right type, and the caller's parameters; the length fields account for every byte sent.", "quantifier": "every queue number, mode, packet size, queue length, both endiannesses, every socket state", "why_tests_cant": "all parameter values", "anchors": ["nfqueue/nfqueue.go:UnbindPf,BindPf,CreateQueue,NfqSetMode,NfqSetQueueMaxLen,NfqDestroyQueue,send", "nfqueue/helpers.go:ToWireFormat"]}
{"id": "C09", "title": "SetVerdict2 delivers verdict, id, mark and packet bytes exactly", "statement": "For every packet of 1..65531 bytes (packetLen = len(packet)) the single message handed to sendmsg decodes to: verdict message for the handle's queue, the given verdict, the given packet id in the byte order the id was read in, the given mark, and a payload equal to the packet byte for byte.", "quantifier": "every verdict, mark, id, queue number and every packet of length 1..65531, both endiannesses, any spare capacity of the packet slice", "why_tests_cant": "all packet contents and lengths, all padding classes", "anchors": ["nfqueue/nfqueue.go:SetVerdict2,sendmsg"]}
{"id": "C10", "title": "SetVerdict delivers verdict, id and packet bytes exactly", "statement": "For every packet the message sent by SetVerdict decodes to the given verdict, id and a payload equal to the packet. (False of the code: the attribute length is rounded up, so the re-injected packet is the original followed by up to three zero bytes. Proved: payload = packet ++ zero padding to a multiple of 4, hence exact iff 4 | len.)", "quantifier": "every verdict, id, queue number, every packet of length 1..65528", "why_tests_cant": "all packet contents and lengths", "anchors": ["nfqueue/nfqueue.go:SetVerdict"]}
{"id": "C11", "title": "A verdict can be issued for every packet", "statement": "SetVerdict/SetVerdict2 send a well-formed verdict for every packet the queue can deliver, including empty payloads and packets near 64KiB. (False of the code: an empty packet crashes; packetLen above 65531 wraps the 16-bit attribute length, and SetVerdict on 65533 to 65535 bytes sends a well-formed message replacing the packet by an empty one. Proved exactly for every length up to 65535: SetVerdict2 hands over the packet given if and only if it has at most 65531 bytes, SetVerdict if and only if its length is a multiple of four up to 65528.)", "quantifier": "every packet length", "why_tests_cant": "boundary lengths are never in the tests", "anchors": ["nfqueue/nfqueue.go:SetVerdict,SetVerdict2"]}
{"id": "C12", "title": "A received packet is delivered with its own id, mark and payload", "statement": "When the kernel delivers a well-formed NFQUEUE packet message carrying packet header, mark and payload attributes (in any order, among any other attributes), Recv followed by GetPacketInfo yields exactly that id, that mark and those payload bytes, whatever messages were received before.", "quantifier": "every well-formed message, every previous receive history, both endiannesses", "why_tests_cant": "unbounded histories and attribute orders", "anchors": ["nfqueue/nfqueue.go:Recv", "nfqueue/helpers.go:GetPacketInfo", "common/helpers.go:NetlinkMessageToNfAttrStruct"]}
{"id": "C13", "title": "A packet without a mark is reported unmarked", "statement": "If a received packet carries no mark attribute the reported mark is 0 regardless of history. (False of the code: the attribute table is reused, so the mark is read from wherever the previous packet's mark lived in the receive buffer. Proved: it holds until the first marked packet, and after that, for every history, exactly which bytes of its own message an unmarked packet is shown as marked with.)", "quantifier": "every receive history", "why_tests_cant": "history dependence across receives", "anchors": ["nfqueue/nfqueue.go:Recv,NewNFQueue", "nfqueue/helpers.go:GetPacketInfo"]}
{"id": "C14", "title": "Packet id handed to the callback is the id the verdict releases", "statement": "The id bytes in the verdict message sent with the id given to the callback are bit-identical to the id bytes in the kernel's packet message (for SetVerdict and SetVerdict2), so the verdict always refers to the packet that was delivered.", "quantifier": "every packet id, both endiannesses", "why_tests_cant": "2^32 ids x both byte orders", "anchors": ["nfqueue/helpers.go:GetPacketInfo,NfqMsgVerdictHdr.ToWireFormat", "nfqueue/nfqueue.go:SetVerdict,SetVerdict2"]}
{"id": "C15", "title": "Configuration calls succeed exactly when the kernel acknowledges", "statement": "For each configuration call on an open socket (nfqueue, nflog, conntrack): it returns nil iff the send succeeded and the kernel's reply is not an error message with non-zero code; a send or receive failure or a non-zero code is returned as an error; exactly one datagram is sent and at most one received. On a handle that was never opened it returns an error and performs no system call.", "quantifier": "every message, every system-call outcome and every kernel reply of at least 20 bytes", "why_tests_cant": "all failure combinations and reply contents", "anchors": ["nfqueue/nfqueue.go:query,recv,send", "nflog/sockets.go", "conntrack/sockets.go"]}
{"id": "C16", "title": "CreateAndStartNfQueue sets up in order and releases the socket on failure", "statement": "For every outcome of every system call, CreateAndStartNfQueue performs open, unbind, bind, create, copy mode, max length in that order and stops at the first failure; it starts the reader iff all succeeded; when it returns an error after the socket was bound, the socket has been closed, and if the queue had been created the destroy command was sent before closing.", "quantifier": "every assignment of outcomes to the system calls (failure points)", "why_tests_cant": "all failure points in combination", "anchors": ["nfqueue/nfqueue.go:CreateAndStartNfQueue,NfqOpen,NfqClose"]}
{"id": "C17", "title": "No socket is leaked when opening fails", "statement": "If an open call of any of the three packages returns an error, no file descriptor remains open. (False of the code: when bind fails the freshly created socket is never closed, in all three packages.)", "quantifier": "every outcome of socket/bind", "why_tests_cant": "needs every failure combination", "anchors": ["nfqueue/nfqueue.go:NfqOpen", "nflog/nflog.go:NFlogOpen", "conntrack/sockets.go:open"]}
{"id": "C18", "title": "Packet loop: one callback per received packet, in order, then close on cancellation", "statement": "In every run of ProcessPackets with an error callback registered, the packet callback is invoked exactly once per successfully received message, in order, with the privateData registered at creation; the error callback exactly once per failed receive; the processed counter equals the number of packet callbacks; when the context is cancelled the socket is closed and the loop returns without receiving again.", "quantifier": "every sequence of receive outcomes and every cancellation point, any callback code", "why_tests_cant": "unbounded runs", "anchors": ["nfqueue/nfqueue.go:ProcessPackets"]}
{"id": "C19", "title": "The packet callback only ever sees received packets", "statement": "The packet callback is never invoked for a receive that failed. (False of the code: with no error callback registered, a failed receive invokes the packet callback with id 0, mark 0 and an empty buffer.)", "quantifier": "every receive outcome, with and without an error callback", "why_tests_cant": "the nil-error-callback branch over all failures", "anchors": ["nfqueue/nfqueue.go:ProcessPackets"]}
{"id": "C20", "title": "Receive path survives arbitrary datagrams", "statement": "ProcessPackets/Recv never crashes whatever the socket returns. (False of the code: datagrams shorter than 20 bytes crash it. Proved: exactly which datagrams a receive survives, which crash it and which make it never return; the loop survives every run with a kernel that sends whole messages.)", "quantifier": "every datagram", "why_tests_cant": "all byte strings", "anchors": ["nfqueue/nfqueue.go:Recv"]}
{"id": "C21", "title": "Concurrent verdicts do not mix (SetVerdict)", "statement": "Under every interleaving of any number of concurrent SetVerdict calls on one handle, each call sends exactly one message and it is the message that call would have sent alone; accepted+dropped counters end up equal to the number of calls, with accepted the number of verdict-1 calls.", "quantifier": "every number of goroutines, every schedule", "why_tests_cant": "schedules", "anchors": ["nfqueue/nfqueue.go:SetVerdict"]}
{"id": "C22", "title": "Concurrent verdicts do not mix (SetVerdict2)", "statement": "Under every interleaving of concurrent SetVerdict2 calls on one handle each call sends its own message. (False of the code: the header is assembled in a buffer shared by the whole handle; a two-goroutine schedule sends one caller's verdict and id with the other caller's packet. Proved: it holds for every schedule when only one goroutine uses SetVerdict2, whatever the others do with SetVerdict.)", "quantifier": "every schedule of every number of goroutines", "why_tests_cant": "schedules", "anchors": ["nfqueue/nfqueue.go:SetVerdict2,NewNFQueue"]}
{"id": "C23", "title": "NFLOG configuration requests say what the caller asked for", "statement": "NFlogUnbind/NFlogBind/NFlogBindGroup/NFlogSetMode put on the socket datagrams that an independent decoder reads as NFLOG config requests with REQUEST|ACK, the group number and the right command or copy mode/range; group calls send one request per group in the given order and stop at the first failure.", "quantifier": "every group list, copy range, every system-call outcome, both endiannesses", "why_tests_cant": "unbounded group lists and failure points", "anchors": ["nflog/nflog.go:NFlogUnbind,NFlogBind,NFlogBindGroup,NFlogSetMode", "nflog/helpers.go"]}
{"id": "C24", "title": "Group configuration fails on an unopened handle", "statement": "NFlogBindGroup/NFlogSetMode on a handle that was not opened return an error. (False of the code: they return nil without sending anything, unlike NFlogBind.)", "quantifier": "every non-empty group list", "why_tests_cant": "asserted for all group lists", "anchors": ["nflog/nflog.go:NFlogBindGroup,NFlogSetMode"]}
{"id": "C25", "title": "Every logged packet is delivered once, in order, with its prefix and addresses", "statement": "For every datagram consisting of well-formed NFLOG packet messages (and other netlink messages), each with any attributes, a prefix before the payload and an IPv4 payload (of which at least 21 bytes, for TCP 37 and for UDP 25, were copied), the callback is invoked exactly once per packet message, in order, with that message's prefix (without its NUL), the packet's addresses, protocol, total length, id and ports.", "quantifier": "every list of messages, attributes, prefixes and payloads", "why_tests_cant": "unbounded message lists", "anchors": ["nflog/nflog.go:parseLog,parsePacket"]}
{"id": "C26", "title": "The logged payload is delivered byte for byte", "statement": "The Payload given to the NFLOG callback equals the payload bytes the kernel logged. (False of the code: the last byte of every netlink message is dropped before parsing, so a payload that ends the message and whose length is a multiple of 4 is delivered with its last byte replaced by 0. Proved: exact whenever the payload is not the last attribute or its length is not a multiple of 4; otherwise exact except for that byte.)", "quantifier": "every payload and attribute layout", "why_tests_cant": "all lengths and positions", "anchors": ["nflog/nflog.go:parseLog,parsePacket"]}
{"id": "C27", "title": "NFLOG parsing terminates without crashing on any datagram", "statement": "parseLog returns for every byte string. (False of the code: 1..15 trailing bytes or a message with length 0 make it loop for ever; a packet message with length 1..16 crashes it. Proved: for every byte string exactly what the callback is shown and how parsing ends - finished, error, crash or never - as a deterministic relation on the bytes; in particular a message whose declared length exceeds the remaining bytes is reported as truncated and not delivered, after the preceding messages were delivered.)", "quantifier": "every byte string", "why_tests_cant": "all inputs", "anchors": ["nflog/nflog.go:parseLog"]}
{"id": "C28", "title": "ReadLogs keeps reading through ENOBUFS and releases the socket when it stops", "statement": "In every run of ReadLogs: each receive error is reported once to the error callback; ENOBUFS is survived; any other receive error ends the loop and the socket is closed exactly once; parse errors are reported and survived; no other outcome ends the loop except a datagram that crashes or never finishes parsing; the whole run is determined, event by event, by the datagrams received.", "quantifier": "every sequence of receive outcomes", "why_tests_cant": "unbounded runs", "anchors": ["nflog/nflog.go:ReadLogs,NFlogClose"]}
{"id": "C29", "title": "BindAndListenForLogs releases the socket on failure", "statement": "For every outcome of every system call, when BindAndListenForLogs returns an error after the socket was bound, the socket has been closed; the reader is started iff all configuration succeeded.", "quantifier": "every failure point", "why_tests_cant": "all combinations of failures", "anchors": ["nflog/nflog.go:BindAndListenForLogs,NFlogOpen"]}
{"id": "C30", "title": "Conntrack mark update request identifies the flow and carries the mark", "statement": "The request sent by ConntrackTableUpdateMark decodes (independent nested TLV decoder) to a conntrack update with REQUEST|ACK whose original tuple has exactly the given IPv4 addresses, protocol and ports and whose mark is the given mark, with all nested lengths consistent with the bytes sent.", "quantifier": "every address pair, protocol, port pair and mark, both endiannesses", "why_tests_cant": "2^136 requests", "anchors": ["conntrack/conntrack.go:buildConntrackUpdateRequest,appendMark,ConntrackTableUpdateMark"]}
{"id": "C31", "title": "Conntrack label update request is well formed", "statement": "The request sent by ConntrackTableUpdateLabel for a matching flow decodes to the flow's tuple and the label, for every protocol. (False of the code for TCP: the two TCP flag attributes declare length 4 although two data bytes follow, so the nested TCP block does not decode. Proved for every non-TCP protocol.)", "quantifier": "every tuple and label", "why_tests_cant": "all protocols", "anchors": ["conntrack/conntrack.go:ConntrackTableUpdateLabel,appendProtoInfo,appendLabel"]}
{"id": "C32", "title": "Only matching flows are updated and the count is right", "statement": "ConntrackTableUpdateMarkForAvailableFlow (and UpdateLabel) sends exactly one update per listed flow whose forward tuple is (src,dst,proto,sport,dport) and whose reverse tuple is the mirror image, and, when every update succeeds, returns their number and no error; flows that do not match cause no traffic; mark 0 sends nothing and returns 0.", "quantifier": "every flow list, tuple and mark, every outcome", "why_tests_cant": "unbounded lists", "anchors": ["conntrack/conntrack.go:ConntrackTableUpdateMarkForAvailableFlow,checkTuplesInFlow,ConntrackTableUpdateLabel"]}
{"id": "C33", "title": "An absent flow is reported as an error", "statement": "ConntrackTableUpdateMarkForAvailableFlow reports 'Entry not present' when no flow matches, and its count always equals the number of flows updated. (False of the code: it returns 0,nil; and after a failure it returns 0 although earlier flows were updated.)", "quantifier": "every flow list", "why_tests_cant": "all lists", "anchors": ["conntrack/conntrack.go:ConntrackTableUpdateMarkForAvailableFlow,ConntrackTableUpdateLabel"]}
{"id": "C34", "title": "Each conntrack update uses and releases its own socket", "statement": "Every conntrack update opens one socket, sends one request, and closes that socket exactly once before returning, whether or not the request succeeded; failure to open is returned as an error. (The last part is false of the code: failure to open crashes.)", "quantifier": "every system-call outcome", "why_tests_cant": "all failure points", "anchors": ["conntrack/conntrack.go:sendMessage", "conntrack/sockets.go:open"]}
{"id": "C35", "title": "Malformed address strings are handled", "statement": "Conntrack update calls with an unparsable address string do not crash. (False of the code.)", "quantifier": "every string the IP parser rejects", "why_tests_cant": "all invalid strings", "anchors": ["conntrack/conntrack.go:checkTuplesInFlow,buildConntrackUpdateRequest", "common/helpers.go:IP2int"]}
{"id": "C36", "title": "IPv4 packet parsing extracts the header fields on the wire", "statement": "Whenever New accepts an IPv4 packet, addresses, protocol, total length, id, and for TCP/UDP the ports (and TCP flags, data offset) returned by the accessors equal the big-endian fields at the RFC offsets; New modifies no byte of the input, and the packet bytes are the input, cut to the stated total length if validation was requested and the input was longer.", "quantifier": "every byte string of up to 65535 bytes (the largest IP packet), validated or not", "why_tests_cant": "all inputs", "anchors": ["common/packet/packet.go:New,parseIPv4Packet,parseTCP,parseUDP,SourceAddress,DestinationAddress,SourcePort,DestPort,IPTotalLen,ID"]}
{"id": "C37", "title": "IPv4 packet parsing: exactly which inputs are accepted, rejected, or crash", "statement": "For every byte string beginning with an IPv4 version nibble: New returns an error for short (<20) packets, IP options, and (with validation) stated length beyond the bytes available and TCP/UDP segments stated too small. It never crashes. (The last sentence is false of the code: the exact crash conditions are proved.)", "quantifier": "every byte string of up to 65535 bytes and both validation modes", "why_tests_cant": "all inputs", "anchors": ["common/packet/packet.go:New,parseIPv4Packet"]}
{"id": "C38", "title": "IPv6 packet parsing extracts the header fields on the wire", "statement": "Whenever New accepts an IPv6 packet the addresses, protocol, 40+payload length and the transport ports equal the wire fields, and the input is not modified; inputs shorter than 40 bytes are rejected with an error. (Last clause false of the code: they crash.)", "quantifier": "every byte string of up to 65535 bytes (the largest IP packet), validated or not", "why_tests_cant": "all inputs", "anchors": ["common/packet/packet.go:New,parseIPv6Packet"]}
{"id": "C39", "title": "Checksums follow RFC 1071", "statement": "The Internet checksum computed over any byte string of up to 131070 bytes (odd lengths zero-padded) is the complement of the ones'-complement sum of its big-endian 16-bit words; computing it piecewise over even-length pieces gives the same value; the folding loop always terminates.", "quantifier": "every byte string up to 131070 bytes, every split at even offsets", "why_tests_cant": "all contents; overflow of the 32-bit accumulator", "anchors": ["common/packet/helpers.go:checksum,checksumDelta,partialChecksum,finalizeChecksum,csumConvert32To16bit"]}
{"id": "C40", "title": "Incremental IPv4 checksum update equals recomputation", "statement": "If a packet's IPv4 header checksum is valid, then after any data-modifying operation that changes the total length the stored total length and checksum bytes are consistent and the header checksum is again valid - the same value a full recomputation gives (never the wrong zero representation).", "quantifier": "every IPv4 header and every old/new length", "why_tests_cant": "2^32 length pairs x all headers; the 0x0000/0xffff corner of ones'-complement", "anchors": ["common/packet/packet.go:FixupIPHdrOnDataModify", "common/packet/helpers.go:incCsum16,VerifyIPv4Checksum"]}
{"id": "C41", "title": "UpdateIPv4Checksum makes the header valid and touches nothing else", "statement": "After UpdateIPv4Checksum the header's 16-bit words sum to 0xffff (RFC 791), VerifyIPv4Checksum answers true, and every byte outside the checksum field is unchanged; VerifyIPv4Checksum answers true iff the field holds exactly the checksum a sender computes - that is iff the header sums to 0xffff and the field is not the all-ones alias of zero - and changes nothing.", "quantifier": "every IPv4 packet state", "why_tests_cant": "all headers", "anchors": ["common/packet/helpers.go:UpdateIPv4Checksum,VerifyIPv4Checksum,computeIPv4Checksum"]}
{"id": "C42", "title": "UpdateTCPChecksum makes the segment valid", "statement": "After UpdateTCPChecksum, the pseudo header plus the TCP segment that GetTCPBytes would emit sums to 0xffff (RFC 793), for IPv4 and IPv6, VerifyTCPChecksum answers true and no other byte changes. (False of the code when the bytes still in the buffer or the attached options have odd length and more bytes are attached after them. Proved for pieces of every length: what is written is the checksum of the pieces each padded to an even length, VerifyTCPChecksum accepts it, and the segment sent is valid exactly when the 16-bit words of the pieces starting at an odd octet sum to a multiple of 257 - always, when both are even.)", "quantifier": "every TCP packet with any attached options/data", "why_tests_cant": "all contents and parities", "anchors": ["common/packet/helpers.go:UpdateTCPChecksum,computeTCPChecksum,VerifyTCPChecksum"]}
{"id": "C43", "title": "Detaching TCP data and attaching it again restores the packet", "statement": "TCPDataDetach(0) removes exactly the TCP payload from the packet and makes it available as TCP data, adjusting IP total length and checksum; attaching that data again restores the emitted packet byte for byte, apart from the reserved low nibble of the data-offset byte which is cleared (and an IPv4 checksum field holding 0xffff, the second representation of zero, which may come back as 0: still valid).", "quantifier": "every parsed TCP packet whose data offset lies inside the packet", "why_tests_cant": "all packets and payload sizes", "anchors": ["common/packet/packet.go:TCPDataDetach,tcpDataDetach,TCPDataAttach,tcpDataAttach,GetTCPBytes"]}
{"id": "C44", "title": "Attaching never damages data already held", "statement": "TCPDataAttach(options, data) makes GetTCPBytes emit the buffer, the previously held options, the new options and then exactly the data given. (False of the code: when options were detached from the middle of the caller's array, appending new options overwrites the detached data in place, so data taken from GetTCPData is corrupted. Proved: exactly which bytes are emitted for data anywhere in memory, that they are right if and only if every byte the new options store over the data is the byte already there, and that it holds when the options were dropped or did not come from the packet.)", "quantifier": "every aliasing between options, data and packet buffer", "why_tests_cant": "aliasing is invisible to value-based tests", "anchors": ["common/packet/packet.go:tcpDataDetach,tcpDataAttach,GetTCPData"]}
{"id": "C45", "title": "Sequence/acknowledgement arithmetic stays consistent with the bytes", "statement": "Increase/DecreaseTCPSeq/Ack add/subtract modulo 2^32, the header bytes always hold the new value, no other byte changes, and a decrease by the same amount undoes an increase.", "quantifier": "every packet and every increment, any sequence of such calls", "why_tests_cant": "wrap-around and arbitrary sequences of calls", "anchors": ["common/packet/packet.go:IncreaseTCPSeq,DecreaseTCPSeq,IncreaseTCPAck,DecreaseTCPAck"]}
{"id": "C46", "title": "Authentication option detection decides exactly and always terminates", "statement": "For every packet New accepted, CheckTCPAuthenticationOption returns (never loops) and reports success exactly when walking the TCP option list (NOP/0 one byte, others by their length byte) meets an option of kind 34; a zero length byte is an error. It never crashes.", "quantifier": "every TCP header and option bytes", "why_tests_cant": "all option encodings, termination", "anchors": ["common/packet/packet.go:CheckTCPAuthenticationOption"]}
{"id": "C47", "title": "Reverse-flow packet is the mirror image with valid headers", "statement": "CreateReverseFlowPacket on any parsed UDP packet yields a packet with swapped addresses and ports both in the accessors and on the wire, cut to IP+UDP headers, with total/UDP length fields equal to the bytes, a valid IPv4 header checksum, and UDP checksum 0 (IPv4) or valid (IPv6).", "quantifier": "every UDP packet, IPv4 and IPv6", "why_tests_cant": "all packets", "anchors": ["common/packet/helpers.go:CreateReverseFlowPacket,fixupUDPHdr,fixupUDPChecksum,updateUDPv6Checksum"]}
{"id": "C48", "title": "UDP control packets round-trip type and token", "statement": "Attaching CreateUDPAuthMarker(t) and a token to a header-only UDP packet (as produced by CreateReverseFlowPacket) makes GetUDPType return t's type nibble and ReadUDPToken return exactly the token, with IP/UDP lengths equal to the bytes; GetUDPTypeFromBuffer never crashes and answers non-zero only if the 18-byte signature is present.", "quantifier": "every type byte and token, every buffer", "why_tests_cant": "all tokens and buffers", "anchors": ["common/packet/helpers.go:CreateUDPAuthMarker,UDPTokenAttach,GetUDPType,GetUDPTypeFromBuffer,ReadUDPToken"]}
{"id": "C49", "title": "UDP data detach/attach", "statement": "After UDPDataDetach and UDPDataAttach(header,data), GetUDPData returns header++data, the IP and UDP length fields equal the actual lengths, the IPv4 header checksum stays valid, and address/port bytes are unchanged. (False of the code when the data given is the packet's own payload, e.g. from GetUDPData, and a header is prefixed: appending the header in place overwrites the data before it is appended. Proved: exactly which payload results for header and data anywhere in memory, that it is right if and only if every header byte stored over the data is the byte already there - in particular whenever they do not overlap.)", "quantifier": "every UDP packet, header and data", "why_tests_cant": "all contents and capacities", "anchors": ["common/packet/helpers.go:UDPDataDetach,UDPDataAttach", "common/packet/packet.go:GetUDPData"]}
{"id": "C50", "title": "IPv6 UDP checksum is valid and never zero", "statement": "The UDP checksum written for IPv6 packets makes pseudo header plus datagram sum to 0xffff and is never 0 (RFC 8200 8.1). (Second part false of the code: 0 is written when the sum is 0xffff.)", "quantifier": "every IPv6 UDP packet", "why_tests_cant": "one packet in 65536 hits the corner", "anchors": ["common/packet/helpers.go:updateUDPv6Checksum"]}
{"id": "C51", "title": "Flow hash identifies an IPv4 flow", "statement": "Two IPv4 packets have equal L4FlowHash iff they have the same source address, destination address, source port and destination port; L4ReverseFlowHash of a packet equals L4FlowHash of the packet of the opposite direction.", "quantifier": "every pair of IPv4 packets", "why_tests_cant": "injectivity over 2^192 pairs", "anchors": ["common/packet/packet.go:L4FlowHash,l4FlowHash,L4ReverseFlowHash"]}
{"id": "C52", "title": "Flow hash identifies an IPv6 flow", "statement": "Two IPv6 packets with equal L4FlowHash belong to the same flow. (False of the code: the ':' separator is ambiguous with compressed IPv6 addresses; two different address pairs give the same string. Proved: equal hashes give equal ports, and the same flow as soon as one of the addresses agrees or both source (or both destination) addresses have no two adjacent zero groups.)", "quantifier": "every pair of IPv6 packets", "why_tests_cant": "injectivity", "anchors": ["common/packet/packet.go:l4FlowHash"]}
{"id": "C53", "title": "The flow hash follows the packet", "statement": "After CreateReverseFlowPacket, L4FlowHash describes the reversed flow. (False of the code: the cached hash of the original direction is returned. Proved for every history of calls: the hash is that of the shown flow after an even number of reversals and of the opposite flow after an odd number.)", "quantifier": "every UDP packet", "why_tests_cant": "all packets", "anchors": ["common/packet/packet.go:L4FlowHash", "common/packet/helpers.go:CreateReverseFlowPacket"]}
{"id": "C54", "title": "ConvertAcktoFinAck yields a data-less FIN/ACK", "statement": "For every parsed TCP packet whose data offset lies inside the packet, ConvertAcktoFinAck sets the flags (accessor and byte) to FIN|ACK, removes all TCP data (GetTCPBytes is the header with its options only), and adjusts the IP total length and checksum consistently; no other byte changes except the reserved nibble.", "quantifier": "every TCP packet", "why_tests_cant": "all packets", "anchors": ["common/packet/helpers.go:ConvertAcktoFinAck,updateTCPFlags"]}
{"id": "C55", "title": "TCP flag rendering", "statement": "TCPFlagsToStr yields six characters, the i-th being the flag's letter iff that flag bit is set and '.' otherwise; so two flag bytes render equally iff their low six bits agree.", "quantifier": "every flags byte", "why_tests_cant": "complete decision table", "anchors": ["common/packet/types.go:TCPFlagsToStr,tcpFlagsToStr"]}
{"id": "C56", "title": "System-call wrappers issue each call once", "statement": "Each wrapper issues the underlying call exactly once and returns its outcome. (False of the code: bind, setsockopt, close and sendto are issued a second time after a failure, and the second outcome is what the caller sees. Proved: exact behaviour - nil iff the first or the second attempt succeeded, one attempt after success, two after failure.)", "quantifier": "every pair of outcomes", "why_tests_cant": "failure then success is never mocked", "anchors": ["common/syscallwrappers/syscalls.go"]}
{"id": "C57", "title": "The end-to-end verdict loop releases every packet unchanged", "statement": "With the documented callback (SetVerdict2 with the delivered id, length and buffer), every well-formed packet message of 1..65531 payload bytes received by the loop causes exactly one verdict message, for the same id, carrying the same payload bytes and the chosen verdict and mark, in order of reception.", "quantifier": "every sequence of received packets", "why_tests_cant": "unbounded histories; composition of receive and send paths", "anchors": ["nfqueue/nfqueue.go:ProcessPackets,Recv,SetVerdict2", "nfqueue/examples/example.go"]}
{"id": "C58", "title": "A delivered packet buffer stays valid", "statement": "The bytes of NFPacket.Buffer handed to a callback do not change after the callback returns. (False of the code: the buffer is a window into the receive buffer that the next receive overwrites.)", "quantifier": "every receive history", "why_tests_cant": "aliasing across receives", "anchors": ["nfqueue/nfqueue.go:Recv,ProcessPackets"]}
{"id": "C59", "title": "Issuing a verdict leaves the caller's memory alone", "statement": "A verdict call changes no memory the caller can see: not the packet, not the bytes around it, not any other slice. (False of the code: padding is appended to the packet slice, so when it has spare capacity up to three bytes after the packet in the caller's array are zeroed. Proved: nothing else changes, for both verdict calls.)", "quantifier": "every packet, every surrounding memory layout and spare capacity", "why_tests_cant": "aliasing: all slice layouts", "anchors": ["nfqueue/nfqueue.go:SetVerdict,SetVerdict2"]}
{"id": "C60", "title": "Parsing a packet uses only the packet's own bytes", "statement": "The fields New reports for a packet depend only on the bytes of the packet given, not on the memory behind it. (False of the code: header fields are sliced up to the capacity, so an unvalidated packet that ends before its transport header is accepted with ports taken from whatever follows in the buffer - e.g. the previous packet. Proved exactly: every field is the one found in the packet followed by the memory behind it; a UDP packet's ports are its own if and only if it holds four bytes of UDP header, a TCP packet's ports, numbers, offset and flags always are and its checksum if and only if the packet reaches it, IPv6 addresses if and only if the packet holds the IPv6 header.)", "quantifier": "every pair of buffers holding the same packet", "why_tests_cant": "needs a comparison of two executions over all neighbouring memory contents", "anchors": ["common/packet/packet.go:New,parseTCP,parseUDP"]}
{"id": "C61", "title": "The queue's socket is closed exactly once and not used afterwards", "statement": "From set-up to the end of the packet loop the library works on no socket but its own, closes it exactly once, when the context is cancelled, as its last action, leaves no descriptor open, and never uses the number after closing it. (Proved when the callbacks do not stop the queue. False of the code once StopQueue is used: it closes the socket but keeps the number, so the loop goes on receiving from it and closes it a second time when the context is cancelled - by then it may be somebody else's file.)", "quantifier": "every kernel behaviour, every callback, every length of run", "why_tests_cant": "the history of system calls over unbounded runs", "anchors": ["nfqueue/nfqueue.go:ProcessPackets,StopQueue,NfqClose,CreateAndStartNfQueue"]}
{"id": "C62", "title": "StopQueue destroys the queue and releases its socket", "statement": "StopQueue asks the kernel to destroy this queue, reports nil exactly when the kernel acknowledged, and returns with the socket closed. (The last part is false of the code: when the kernel refuses, or the exchange fails, it returns the error and leaves the socket open. Proved: the request, the outcome, and that the socket is closed straight after a successful exchange and untouched after a failed one.)", "quantifier": "every kernel reply, both byte orders, every queue number", "why_tests_cant": "ranges over all kernel replies", "anchors": ["nfqueue/nfqueue.go:StopQueue,NfqDestroyQueue"]}
{"id": "C63", "title": "Any history of edits keeps a TCP packet consistent", "statement": "After any sequence of calls on a parsed TCP packet (sequence and acknowledgement changes, IP and TCP checksum updates and verifications, detach, attach, drop, SetTCPData, ConvertAcktoFinAck), each within its documented argument range, the accessors agree with the packet's bytes, the flow is unchanged, sequence and acknowledgement numbers, data offset, flags and total length are the original ones plus what the calls asked for, a valid IPv4 header checksum stays valid and no call panics; and the total length equals the number of bytes GetTCPBytes returns. (The last part is false of the code for every order of calls: attaching twice counts both lengths. Proved for orderly histories - attach once, after what was detached has been dropped or is being re-attached - and exactly for every history: the length is right if and only if what was attached and what the packet still carries have the same length modulo 65536.)", "quantifier": "every parsed TCP packet, every finite history of calls, every argument and memory layout", "why_tests_cant": "unbounded histories with aliasing slices", "anchors": ["common/packet/packet.go:IncreaseTCPSeq,DecreaseTCPSeq,IncreaseTCPAck,DecreaseTCPAck,TCPDataDetach,TCPDataAttach,FixupIPHdrOnDataModify,DropTCPDetachedBytes", "common/packet/helpers.go:UpdateIPv4Checksum,UpdateTCPChecksum,ConvertAcktoFinAck"]}
{"id": "C64", "title": "Payload accessors show the payload", "statement": "ReadTCPData, ReadTCPDataString, TCPDataStartBytes, GetBuffer and GetUDPData show exactly the bytes of the packet behind the header (or offset) they name, and IsEmptyTCPPayload says whether there are any; none of them crashes on a packet New accepted. (The last two parts are false of the code: New accepts a data offset pointing beyond the packet and ReadTCPData then panics; and the emptiness test looks at what was parsed, not at what the packet carries after an edit. Proved: the exact bytes, the exact crash condition, and emptiness as parsed.)", "quantifier": "every packet in every state reached by the edits of C63", "why_tests_cant": "all header lengths and packet sizes", "anchors": ["common/packet/packet.go:ReadTCPData,ReadTCPDataString,TCPDataStartBytes,GetBuffer,GetUDPData,IsEmptyTCPPayload"]}
{"id": "C65", "title": "SourcePortHash identifies the application's end point", "statement": "Two packets of the same IP version have the same SourcePortHash for a stage exactly when the address and port of the end the stage names (destination for packets from the network, source otherwise) are the same; and the hash of one direction from the network equals that of the other direction from the application.", "quantifier": "every pair of packets, every stage", "why_tests_cant": "injectivity over all addresses and ports", "anchors": ["common/packet/packet.go:SourcePortHash"]}
{"id": "C66", "title": "Print shows the packet and changes nothing", "statement": "The log line Print produces shows the packet's addresses, ports, flags, sequence and acknowledgement numbers, offset, checksum, the right checksum, the payload length, the acknowledgement the peer will answer with, and the raw bytes; it is produced exactly when asked for; and memory is as before. (The expected acknowledgement is wrong for every segment with FIN. Proved: all the rest, and its exact value.)", "quantifier": "every TCP packet, every context and log level", "why_tests_cant": "all packets; the computation temporarily clears the checksum in the packet", "anchors": ["common/packet/packet.go:Print", "common/packet/types.go:flagsToDir,flagsToStr,TCPFlagsToStr"]}
{"id": "C67", "title": "SetTCPFlags sets the packet's flags", "statement": "After SetTCPFlags the packet carries the flags given and GetTCPFlags reports them. (The first part is false of the code for every packet and every change: only the cached field changes, the bytes sent keep the old flags. Proved: what changes and what does not.)", "quantifier": "every packet and flags byte", "why_tests_cant": "all packets and flag values", "anchors": ["common/packet/helpers.go:SetTCPFlags", "common/packet/packet.go:GetTCPFlags"]}
{"id": "C68", "title": "Looking at packets from several goroutines", "statement": "VerifyTCPChecksum and GetTCPBytes may be called from several goroutines at the same time: each call answers what it answers alone, and no packet changes. (False of the code when goroutines share a packet: verification clears the packet's checksum and puts it back, so two verifications can erase the checksum for good, one of them can be told that a right checksum is wrong, and a concurrent GetTCPBytes can return the packet without it. Proved for any number of goroutines and calls, interleaved byte access by byte access in any way, when no goroutine looks at a packet another one verifies.)", "quantifier": "every number of goroutines, every list of calls per goroutine, every interleaving", "why_tests_cant": "all interleavings of memory accesses", "anchors": ["common/packet/helpers.go:VerifyTCPChecksum,computeTCPChecksum", "common/packet/packet.go:GetTCPBytes"]}
{"id": "C69", "title": "Message number and subsystem are the two bytes of the type field", "statement": "NlMsgSubsysID and NlMsgType take a netlink type field apart into the subsystem (upper byte) and the message number (lower byte): each is recovered from the type built from them, and together they give the type back.", "quantifier": "every uint16 type field", "why_tests_cant": "all values of the field", "anchors": ["common/helpers.go:NlMsgType,NlMsgSubsysID"]}
{"id": "C70", "title": "Verdicts on several queues do not mix", "statement": "When goroutines give verdicts on different queues at the same time, one goroutine per queue, every queue receives exactly the messages of its own calls, in their order, whatever the interleaving, and every call can be finished.", "quantifier": "every number of queues, every list of verdicts per queue, every interleaving of memory accesses and system calls", "why_tests_cant": "all interleavings", "anchors": ["nfqueue/nfqueue.go:SetVerdict,SetVerdict2", "nfqueue/examples/example.go:main"]}
{"id": "C71", "title": "The flow named by the address strings is the one updated", "statement": "ConntrackTableUpdateMark called with two address strings updates the flow between exactly the addresses these strings denote. (False of the code for IPv6: whatever two IPv6 addresses are given, the flow updated is the IPv4 one between the addresses made of their last four bytes. Proved: for IPv4 addresses written in dotted decimal.)", "quantifier": "every pair of addresses, every protocol, ports and mark", "why_tests_cant": "all addresses and their texts", "anchors": ["conntrack/conntrack.go:ConntrackTableUpdateMark,checkTuplesInFlow", "common/helpers.go:IP2int"]}
{"id": "C72", "title": "The log callback is told the packet's IP version", "statement": "Every packet reported by the log reader carries the IP version of the logged packet. (False of the code for IPv6: every IPv6 packet is reported with Version 4, next to its own IPv6 addresses. Proved: for IPv4 packets the version is right.)", "quantifier": "every logged packet", "why_tests_cant": "all logged packets", "anchors": ["nflog/nflog.go:parsePacket", "nflog/constants.go:IPVersion"]}
{"id": "C73", "title": "A datagram larger than the log reader's buffer", "statement": "When a datagram does not fit in the log reader's 65536 bytes, the messages before the cut are delivered, the loss is reported to the error callback, and the reader goes on. (False of the code in two cases: a cut that leaves 1 to 15 bytes of a message header makes the reader loop for ever without reporting anything, and a cut exactly between two messages loses the rest without a report. Proved: when at least the 16 bytes of the header are left.)", "quantifier": "every datagram, every cut point", "why_tests_cant": "all datagrams and cut points", "anchors": ["nflog/nflog.go:ReadLogs,parseLog"]}
{"id": "C74", "title": "PacketToStringTCP describes the packet", "statement": "PacketToStringTCP shows the source and destination port, the checksum and all bytes of the packet as they are on the wire, readable back without loss; two packets with the same text have the same bytes; when the IP header cannot be read the text is (error). Whatever the IP header library writes does not get in the way.", "quantifier": "every TCP packet, every text the IP header library produces", "why_tests_cant": "all packets and header texts", "anchors": ["common/packet/helpers.go:PacketToStringTCP"]}
{"id": "C75", "title": "What is set is what is read and sent", "statement": "The setters of the attribute header and of the 8, 16 and 32 bit values show in the getters and in the bytes written, and leave the other field alone; the nfgen getters show the received bytes; SetNetlinkData makes a zeroed payload of the size asked for in memory of its own.", "quantifier": "every value, every previous content, both byte orders", "why_tests_cant": "all values", "anchors": ["common/accessors.go:SetNfaType,SetNfaLen,Set8Value,Set16Value,Set32Value,SetNetlinkData,GetNfgenResID"]}
{"id": "C76", "title": "Listing the conntrack table", "statement": "ConntrackTableList returns the flows of the table, an error exactly when the table cannot be read, and updating the listed flows updates exactly the matching flows of the table. (False of the code: an empty table is reported as an error and only IPv4 flows are ever listed. Proved: a non-empty IPv4 listing is passed on unchanged, failures are reported, and listing followed by a mark update touches exactly the matching flows.)", "quantifier": "every answer of the netlink library, every kernel behaviour during the updates", "why_tests_cant": "all tables and kernel replies", "anchors": ["conntrack/conntrack.go:ConntrackTableList,ConntrackTableUpdateMarkForAvailableFlow"]}
{"id": "C77", "title": "The log socket is closed exactly once and not used afterwards", "statement": "From BindAndListenForLogs to the end of the reader the log socket is the only one used, it is closed exactly once when the reader ends - whether by a receive error or by a crash - and never used afterwards; nothing is left open. (Proved when the application leaves the closing to the reader. False of the code once NFlogClose is called while the reader runs: the reader goes on receiving from the closed number and closes it a second time.)", "quantifier": "every kernel behaviour, every number of groups, every number of turns of the reader", "why_tests_cant": "all kernel behaviours and run lengths", "anchors": ["nflog/nflog.go:BindAndListenForLogs,ReadLogs,NFlogClose"]}
{"id": "C78", "title": "Receiving goes on while verdicts are issued", "statement": "While the receive loop reads datagrams into its one buffer, verdicts issued by the callback before it returns carry the bytes of their own datagram, and verdicts issued by other goroutines on packets of their own carry those packets, whatever the schedule. (False of the code when the delivered buffer itself is handed to another goroutine: for every next datagram some schedule makes that verdict carry the next datagram's bytes. Proved for goroutines working on copies, one goroutine using SetVerdict2.)", "quantifier": "every list of datagrams, every number of goroutines and calls, every schedule", "why_tests_cant": "all schedules", "anchors": ["nfqueue/nfqueue.go:Recv,ProcessPackets,SetVerdict,SetVerdict2"]}
{"id": "C79", "title": "A mutex around SetVerdict2 makes concurrent verdicts safe", "statement": "If the application holds one mutex around every SetVerdict2 call on a handle (SetVerdict calls need none), then any number of goroutines may issue verdicts on packets of their own while the receive loop runs and its callback issues verdicts too: under every schedule each call sends exactly its own verdict, mark, id and packet, in the caller's order, and no schedule deadlocks.", "quantifier": "every number of goroutines, calls and datagrams, every assignment of the mutex that covers the SetVerdict2 calls, every schedule", "why_tests_cant": "all schedules", "anchors": ["nfqueue/nfqueue.go:SetVerdict2,SetVerdict,ProcessPackets"]}
{"id": "C80", "title": "Any history of edits keeps a UDP packet consistent", "statement": "After any sequence of UDPDataDetach, UDPDataAttach, UDPTokenAttach, CreateReverseFlowPacket and UpdateIPv4Checksum on a parsed UDP packet (attaching real octets, staying below 64 KiB, not attaching memory the append overwrites), every call has succeeded; GetUDPData returns exactly the octets attached since the last detach or reversal (after the original data if there was none); addresses and ports are the original ones after an even number of reversals and exchanged after an odd number; version, flags, hop limit and protocol octets never change; and the packet is complete: IP length, UDP length and checksums right. (The last part is false of the code: UDPDataDetach leaves the IP length alone and UDPTokenAttach adds to it, so after detach and token attach the IP length still counts the detached data. Proved: the IP length exceeds the actual length by exactly what was detached since the last data attachment or reversal, the IPv4 header checksum stays right, the UDP fields are right unless the last edit was a detachment, and the packet is complete whenever a data attachment or reversal followed the last detachment.)", "quantifier": "every parsed UDP packet and every finite sequence of permitted calls", "why_tests_cant": "all histories, contents and capacities", "anchors": ["common/packet/helpers.go:UDPDataDetach,UDPDataAttach,UDPTokenAttach,CreateReverseFlowPacket,FixupIPHdrOnDataModify", "common/packet/packet.go:UpdateIPv4Checksum,GetUDPData"]}
{"id": "C81", "title": "Every packet the kernel queues reaches the callback exactly once, in order", "statement": "From the creation of the queue on, every packet the kernel puts on the socket is handed to the packet callback exactly once, in the order of arrival, with its own id, mark and payload, or is still waiting on the socket. (False of the code: a packet that arrives between the creation of the queue and the end of the set-up is taken for the answer to the next set-up request and lost: it is never shown and never gets a verdict. Proved: it holds for every run, callback that does not stop the queue and arrival schedule when packets only arrive after the last set-up answer was sent.)", "quantifier": "every arrival schedule on a FIFO socket, every number of loop turns, every well-behaved callback, every cancellation point, both endiannesses", "why_tests_cant": "arrival schedules and run lengths are unbounded; tests use a mock that answers each call separately, so there is no socket queue in them", "anchors": ["nfqueue/nfqueue.go:CreateAndStartNfQueue,recv,query,ProcessPackets,Recv"]}
{"id": "C82", "title": "A configuration call reports what the kernel answered to it", "statement": "A configuration call returns nil exactly when the kernel acknowledged that request, and otherwise the kernel's error code. (False of the code when a packet is waiting on the socket: any message that is not an error is taken for the acknowledgement, so StopQueue returns nil although the kernel refused it. Proved: it holds for every configuration call when nothing is waiting.)", "quantifier": "every configuration call, every FIFO socket state with nothing waiting, every kernel answer, both endiannesses", "why_tests_cant": "the outcome depends on what else is queued on the socket when the call is made", "anchors": ["nfqueue/nfqueue.go:recv,query,StopQueue,NfqSetMode,NfqSetQueueMaxLen,NfqDestroyQueue"]}
{"id": "C83", "title": "Version, lengths and the test packet are reported as they are", "statement": "IPversion is 4 exactly when the packet's first four bits say 4, and IPHeaderLen is that version's fixed header length; GetIPLength is the length the IP header states; TCPOptionLength and TCPDataLength are the lengths of what GetTCPOptions and GetTCPData give, and with the buffer they add up to the packet sent; GetUDPData is what follows GetUDPDataStartBytes behind the IP header; and the packet TestGetTCPPacket makes is indistinguishable, by its hashes, from a received packet of that flow. (The last part is false of the code for L4FlowHash: the test packet's is empty for every flow. Proved: addresses, ports, SourcePortHash and the reverse flow hash.)", "quantifier": "every packet New accepts, every state after edits, every flow", "why_tests_cant": "all packets and all histories of edits", "anchors": ["common/packet/packet.go:IPversion,IPHeaderLen,GetIPLength,TCPOptionLength,TCPDataLength,GetUDPDataStartBytes,TestGetTCPPacket"]}
{"id": "C84", "title": "Every log message is shown exactly once, in order", "statement": "On a netlink socket that queues datagrams, every datagram of log messages that arrives reaches the log callback exactly once and in order of arrival, and a set-up that returns success was acknowledged by the kernel. (False of the code: a log message that arrives between the binding of the first group and the end of the set-up is taken for the answer to the next request: its packets are never shown, and a refusal of a later request is skipped by the reader and never reported. Proved: for every run in which the answers to the set-up requests come first.)", "quantifier": "every sequence and timing of datagrams the reader gets through, every number of turns, every interruption", "why_tests_cant": "all arrival orders and run lengths", "anchors": ["nflog/nflog.go:BindAndListenForLogs,NFlogBindGroup,NFlogSetMode,ReadLogs", "nflog/sockets.go:query,recv"]}
{"id": "C85", "title": "StopQueue called while ProcessPackets runs", "statement": "When one goroutine calls StopQueue while another is in ProcessPackets on the same handle, every datagram on the socket is taken by exactly one of the two, in order of arrival, StopQueue takes at most one, StopQueue returns with the kernel's answer to its request, every packet the loop takes is shown to the callback with its own id, mark and payload, and the socket is closed once per successful stop or cancelled loop. (The counting part is proved for every schedule; that StopQueue returns, that it reports a refusal it received, and that a packet the loop took is shown as it is are refuted: the loop can take the answer, after which StopQueue waits for ever in every continuation, and the two receive into one buffer.)", "quantifier": "every interleaving of the two goroutines' system calls with packet arrivals and cancellation, every kernel, every callback that does not itself stop the queue", "why_tests_cant": "tests cannot enumerate the schedules; the lost answer needs the loop's receive to run between StopQueue's send and its receive", "anchors": ["nfqueue/nfqueue.go: StopQueue, NfqDestroyQueue, query, recv, ProcessPackets, Recv"]}
{"id": "C86", "title": "Cancelling the context while the loop waits", "statement": "After the context passed to CreateAndStartNfQueue is cancelled, the loop takes at most one more datagram and then returns, closing the socket. (Proved: at most one more, none if it was not already waiting, and at its next look at the context it closes and returns; refuted: that it returns - a loop blocked in its receive stays there in every continuation in which no datagram arrives.)", "quantifier": "every schedule before and after the cancellation, every kernel and callback that does not stop the queue", "why_tests_cant": "absence of further receives after a cancellation, and waiting for ever, are statements about all continuations", "anchors": ["nfqueue/nfqueue.go: ProcessPackets, Recv, NfqClose"]}
{"id": "C87", "title": "Replacing and dropping the detached pieces", "statement": "SetTCPData replaces the data piece and nothing else: the options, the buffer and every other accessor are unchanged and the bytes sent are buffer, options, new data; DropTCPDetachedDataBytes removes exactly the data piece, DropTCPDetachedBytes both pieces; and the packet's stated IP length stays the number of bytes sent. (The last part is false of the code, which does not touch the length: proved that it stays true exactly when a replacement is as long as what it replaces and nothing is dropped.)", "quantifier": "every packet state, every slice", "why_tests_cant": "all packets, all replacement slices", "anchors": ["common/packet/packet.go:SetTCPData,DropTCPDetachedDataBytes,DropTCPDetachedBytes,GetTCPBytes,GetIPLength"]}
{"id": "C88", "title": "The conntrack examples mark the flows they name", "statement": "Run on a conntrack table, the first conntrack example marks the table's first entry with 42, prints how many entries were updated and displays the first entry of the table afterwards; the second one marks exactly the TCP flow 10.0.2.15:22 -> 10.0.2.2:57766 with 24. (Partial: the first entry is marked exactly when its addresses and ports are not translated; a translated first entry is left alone and 0 is printed without error; on an empty or unreadable table, or one that has become empty, the program panics.)", "quantifier": "every table contents before and after, every first entry, every kernel behaviour", "why_tests_cant": "the table is arbitrary: any number of entries, translated or not, changing between the two listings", "anchors": ["conntrack/examples/example/example.go main", "conntrack/examples/example2/main.go main", "conntrack/conntrack.go ConntrackTableUpdateMarkForAvailableFlow"]}
{"id": "C89", "title": "The nfqueue example passes every packet", "statement": "Each queue of the nfqueue example (10 to 13) releases every packet it receives with exactly one verdict message: verdict accept, mark 11, the packet's own id and bytes, through its own queue; failed receives are skipped.", "quantifier": "every history of packets and failed receives, of any length, each of the four queues", "why_tests_cant": "histories of packets are unbounded", "anchors": ["nfqueue/examples/example.go passVerdict, passNetVerdict, main"]}
{"id": "C90", "title": "UDPFlowCreate makes the flows asked for and leaves nothing open", "statement": "UDPFlowCreate(n, p, ip, port) sends one datagram to ip:port from each of the local ports p, p+1, ..., p+n-1 in turn, stops with an error at the first that fails, closes every connection it opened, and returns nil only if all n flows were made. (Partial: a failed send goes unnoticed: nil does not mean that the datagrams were sent.)", "quantifier": "every number of flows, ports, addresses and every behaviour of the network library", "why_tests_cant": "any of the 5n requests may fail, for any n", "anchors": ["conntrack/test_utils.go UDPFlowCreate"]}
{"id": "C91", "title": "Rewritten packet reaches the kernel intact", "statement": "A client that takes a queued TCP packet without data, attaches TCP options and data to it, recomputes the TCP checksum and accepts it with SetVerdict2 makes the library send exactly one verdict: same queue, same id, same mark, and the packet extended by exactly those options and data, with correct IP length, IPv4 and TCP checksums and TCP header length and every other header byte unchanged. A malformed IPv4 packet that the parser refuses is dropped under its own id, unchanged. The queue stays usable.", "quantifier": "every delivered datagram (any attribute order and unknown attributes), every IPv4/IPv6 TCP packet without data, all options (multiples of 4 bytes) and data that fit, every state of a started queue, every allocator behaviour", "why_tests_cant": "the composition of receive, parse, attach, checksum and verdict must be right for all packets and all memory layouts; a test tries a few packets and mocks the kernel", "anchors": ["nfqueue/nfqueue.go:Recv", "nfqueue/helpers.go:GetPacketInfo", "common/packet/packet.go:New", "common/packet/packet.go:TCPDataAttach", "common/packet/packet.go:UpdateTCPChecksum", "nfqueue/nfqueue.go:SetVerdict2"]}
{"id": "C92", "title": "The error callback's data tells whether there is a message to look at", "statement": "The queue's error callback is called with the error and with data that is nil exactly when there is no parsed message; otherwise it is the generic netfilter header (family, version, queue id) of the datagram that could not be parsed. Each error callback belongs to the receive directly before it. (False of the code: the data is never nil - when nothing was received or the kernel reported an error it is a non-nil interface holding a nil *NfqGenMsg, so the usual nil test passes and using it panics; what is given in each case is proved exactly.)", "quantifier": "every run of the packet loop on a started queue: all kernels, datagrams, packet callbacks", "why_tests_cant": "needs all failures of the receive path (system call, kernel error, cut attributes) in any order; the repository's test only fails the system call and ignores the data", "anchors": ["nfqueue/nfqueue.go:ProcessPackets", "nfqueue/nfqueue.go:Recv"]}
{"id": "C93", "title": "Received packets and the notification channel", "statement": "GetNotificationChannel promises a channel on which received packets can be read. Nothing is ever sent on it: whatever methods of the handle are called, however often, in whatever order and with whatever arguments, kernel answers and callbacks, the channel is empty (so a program that waits on it waits for ever). (The property a user expects, that a received packet appears on the channel, is false of the code; the theorem states the opposite for every history.)", "quantifier": "all handles from NewNFQueue or CreateAndStartNfQueue, all finite sequences of method calls with all arguments, all kernels and all callbacks", "why_tests_cant": "a test observes one history; that no history at all sends on the channel is a statement over all of them", "anchors": ["nfqueue/nfqueue.go:GetNotificationChannel", "nfqueue/nfqueue.go:NewNFQueue", "nfqueue/nfqueue.go:ProcessPackets"]}
{"id": "C94", "title": "A handle operates only on descriptors it opened", "statement": "Whatever methods of a queue handle or of a log handle are called, in whatever order and with whatever arguments, kernel answers and callbacks, every bind, setsockopt, send, receive and close the handle performs is on a descriptor that an earlier successful socket(AF_NETLINK, SOCK_RAW, NETLINK_NETFILTER) call of the same handle returned (never 0 or -1 by accident, never another descriptor of the program).", "quantifier": "all finite histories of method calls on a new or started handle, all kernels, all callbacks, all received bytes", "why_tests_cant": "tests run one sequence of methods; a method called before Open, after a failed Open or after a failed request is exactly what they leave out", "anchors": ["nfqueue/nfqueue.go:NfqOpen", "nfqueue/nfqueue.go:StopQueue", "nfqueue/nfqueue.go:SetVerdict", "nflog/nflog.go:NFlogOpen", "nflog/nflog.go:ReadLogs", "nflog/sockets.go"]}
{"id": "C95", "title": "No use of a descriptor after it was closed", "statement": "After a queue handle or a log handle has closed its socket it makes no further system call on that descriptor. (False: closing does not clear the descriptor. After NfqClose or NFlogClose every configuration call still sends its request on the closed number, which the operating system may have given to another file of the program; what holds is C94.)", "quantifier": "all handles, all configuration calls, all kernels", "why_tests_cant": "needs every call after close with every kernel", "anchors": ["nfqueue/nfqueue.go:NfqClose", "nfqueue/nfqueue.go:NfqSetMode", "nflog/nflog.go:NFlogClose", "nflog/nflog.go:NFlogBindGroup"]}
{"id": "C96", "title": "A queue handle leaves alone memory it was not given", "statement": "An array that the program had before it made the handle, and of which no slice is given to a verdict (by the program or by a callback) and into which no callback stores, has the same bytes after any sequence of calls of the handle's methods: receiving, parsing, serialising and padding write only to the handle's own buffers, to new memory and to what they were given.", "quantifier": "all arrays of the program, all finite histories of method calls, all kernels and received bytes, all callbacks that keep away from the array", "why_tests_cant": "a test cannot observe all memory after all histories", "anchors": ["nfqueue/nfqueue.go:Recv", "nfqueue/nfqueue.go:SetVerdict", "nfqueue/nfqueue.go:SetVerdict2", "nfqueue/nfqueue.go:ProcessPackets", "common/helpers.go:NetlinkMessageToNfAttrStruct"]}
{"id": "C97", "title": "Log handles and conntrack updates never write to the program's memory", "statement": "An array that the program had before it made a log handle (or before it called the conntrack updates) has the same bytes after any sequence of calls, whatever the arguments, the kernel's answers and the received bytes, and whether or not calls fail or panic: requests are built in, and replies and log messages received into, memory the library allocates itself.", "quantifier": "all arrays of the program, all finite histories of calls with all arguments, all kernels and received bytes", "why_tests_cant": "a test cannot observe all memory after all histories; the request buffer is reused as receive buffer, so the answer's length matters", "anchors": ["nflog/nflog.go:ReadLogs", "nflog/sockets.go:query", "conntrack/sockets.go:query", "conntrack/conntrack.go:sendMessage"]}
{"id": "C98", "title": "Conntrack updates use only open descriptors and leave none open", "statement": "In any sequence of conntrack updates, with any arguments, flow lists and kernel answers, and even if the program recovers from panics, every bind, send, receive and close is on a descriptor which a netlink socket call returned and which has not been closed since; and at the end no descriptor is open. (The last part is false after a failed bind: the descriptor of that socket is never closed, and the call panics. It is proved for all histories without a failed bind.)", "quantifier": "all finite sequences of update calls, all arguments and flow lists, all kernels", "why_tests_cant": "needs all interleavings of successes and failures over histories of any length", "anchors": ["conntrack/sockets.go:open", "conntrack/conntrack.go:sendMessage", "conntrack/conntrack.go:ConntrackTableUpdateMarkForAvailableFlow", "conntrack/conntrack.go:ConntrackTableUpdateLabel"]}
{"id": "C99", "title": "A packet message's missing parts are not invented", "statement": "A packet message that carries no payload (copy mode none or meta) is shown to the callback with an empty buffer, and one without a packet header with id 0. (False: the attribute table is never cleared. As long as no message has carried a payload every packet is shown with a buffer of 76800 bytes; afterwards with as many bytes as the last payload had, taken from its own message at the place where that payload was; the id likewise. The theorems say exactly this for every run.)", "quantifier": "all runs of a started queue of any length, all kernels and datagrams, all well-behaved callbacks, both byte orders", "why_tests_cant": "what is shown depends on the whole history of earlier messages and on the layout of two of them", "anchors": ["nfqueue/nfqueue.go:NewNFQueue", "nfqueue/nfqueue.go:Recv", "nfqueue/helpers.go:GetPacketInfo", "common/helpers.go:NetlinkMessageToNfAttrStruct"]}
{"id": "C100", "title": "Parts of one program do not use each other's sockets", "statement": "In a program with any number of queues, log listeners and goroutines making conntrack updates, interleaved in any way, each part binds, configures, sends on, receives from and closes only descriptors it holds: it opened them itself and since then nobody else has used or closed them. (False of the code for a queue whose callback stops it: the loop later closes the number again, and by then it may be another part's socket. Proved: for queues that are not stopped from a callback, all log listeners and all updates.)", "quantifier": "every set of parts with every argument, every interleaving, every answer of a kernel that does not hand out a descriptor that is in use", "why_tests_cant": "all programs, interleavings and kernel answers", "anchors": ["nfqueue/nfqueue.go:CreateAndStartNfQueue,ProcessPackets,StopQueue", "nflog/nflog.go:BindAndListenForLogs,ReadLogs", "conntrack/sockets.go:open,close", "conntrack/conntrack.go:sendMessage"]}
{"id": "C101", "title": "Editing a packet leaves all other memory alone", "statement": "Whatever calls are made on a packet (sequence and acknowledgement numbers, checksums, detach, attach, token and data attach, reversal, conversion to FIN-ACK, setters), in whatever order and with whatever slices handed in, every byte that existed when the packet was made and that lies outside the memory its slice gave access to - another array, before the slice, or beyond the end of its capacity - keeps its value. In particular the option, data and token slices handed in are never written, and neither is the rest of the receive buffer if the slice's capacity ends with the packet. (The bytes between the end of the slice and the end of its capacity are not safe: attaching overwrites them.)", "quantifier": "for all memories, slices, packets, histories of calls, arguments and growth policies of append", "why_tests_cant": "the statement ranges over all histories of calls and all aliasing between the slices involved; a test sees a few bytes of a few layouts", "anchors": ["common/packet/packet.go: New, TCPDataAttach, TCPDataDetach", "common/packet/helpers.go: UDPTokenAttach, UDPDataAttach, CreateReverseFlowPacket, FixupIPHdrOnDataModify, UpdateTCPChecksum, UpdateIPv4Checksum, ConvertAcktoFinAck"]}
{"id": "C102", "title": "A client that answers UDP packets works end to end", "statement": "A client takes a message from its queue, parses the packet it carries, reverses the packet's flow, attaches a control marker and a token and hands the result back with SetVerdict2. For every message that delivers a UDP packet (IPv4 without IP options, or IPv6 without extension headers, stating its own length) with an id and a mark, exactly one message goes out: an accepting verdict under that id and mark whose packet has the addresses and the ports exchanged, as payload the type, a zero byte, the 18-byte signature and the token, right lengths and valid checksums, and otherwise the received packet's IP header. A TCP packet goes back unchanged, a malformed IPv4 packet is dropped under its own id, and the queue is ready for the next message.", "quantifier": "for all machines' byte orders, receive buffers, queue states, packets, ids, marks, types and tokens (every length up to the 65531 bytes a verdict can carry), and growth policies of append", "why_tests_cant": "each stage has its own tests at best; that buffers, lengths, checksums and ids fit together holds for all packets or not at all", "anchors": ["nfqueue/nfqueue.go: Recv, SetVerdict2", "nfqueue/helpers.go: GetPacketInfo", "common/packet/packet.go: New", "common/packet/helpers.go: CreateReverseFlowPacket, UDPTokenAttach, CreateUDPAuthMarker"]}
{"id": "C103", "title": "A client's verdicts answer its packets in turn", "statement": "The client of C102 serves any number of messages from its queue, on a kernel that each time delivers a UDP packet, a TCP packet or a malformed IPv4 packet of its choice. Every message gets exactly one verdict message, sent after it was received and before the next one is received: its packet's answer (flow reversed, marker and token attached, lengths and checksums right) if it carries a UDP packet, the packet itself, byte for byte, if it carries a TCP packet, a drop if it carries no packet - each under the id and mark of that message. The run never fails, the queue is ready for the next message, and the client's token is the same at the end.", "quantifier": "all numbers of messages, all sequences of packets, ids and marks, all byte orders, types and tokens up to 65463 bytes, growth policies of append", "why_tests_cant": "later messages are handled in memory earlier ones have written: receive buffer, verdict header, attribute table; that nothing of one leaks into the next needs an induction over the history", "anchors": ["nfqueue/nfqueue.go: Recv, SetVerdict2", "nfqueue/helpers.go: GetPacketInfo", "common/packet/packet.go: New", "common/packet/helpers.go: CreateReverseFlowPacket, UDPTokenAttach, CreateUDPAuthMarker"]}
{"id": "C104", "title": "The machine's byte order is known before it is needed", "statement": "Packet ids, attribute and message headers are read and written in the machine's byte order by every exported call of nfqueue, whatever the program called before; and creating queues from several goroutines at once is safe. (False: nfqueue keeps the order in a package variable that is nil until the first NewNFQueue. Before that, GetPacketInfo on any message with a packet header, NfqMsgVerdictHdr.ToWireFormat and requests on the socket of an NfQueue that was not made by NewNFQueue panic; and concurrent first calls of NewNFQueue write the variable in a data race. After the first queue every answer is right, in every history; and under sequential consistency every interleaving of creations leaves the variable at the machine's order, never back at nil.)", "quantifier": "all histories of calls, all attribute tables, headers and data, both byte orders; all numbers of goroutines and interleavings of their steps", "why_tests_cant": "tests all begin by creating a queue, and run on one byte order; races show under rare schedules", "anchors": ["nfqueue/nfqueue.go: native, NewNFQueue, nfqueueinit, send", "nfqueue/helpers.go: GetPacketInfo, ToWireFormat", "common/helpers.go: NativeEndian"]}
