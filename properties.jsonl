{"id": "C01", "title": "Checksum closes to zero and catches any single-byte change", "statement": "For every byte slice p, appending Checksum(p) makes the checksum of the whole slice 0; and replacing exactly one byte of any slice by a different byte always changes its Checksum, so a one-byte corruption of a packet's payload or checksum byte is rejected by ReadPacket with 'invalid checksum' and never delivered.", "quantifier": "all byte slices, all positions, all replacement bytes", "why_tests_cant": "infinitely many slices; positions times values cannot be enumerated", "anchors": ["crc.go:Checksum", "packet.go:parsePacket", "packet.go:PacketReader.ReadPacket"]}
{"id": "C02", "title": "CRC8 hash object is incremental", "statement": "Feeding a CRC8 hash any sequence of Write calls gives Sum8 equal to Checksum of the concatenation, however the input is split; Reset restores the initial state; Sum appends exactly that one byte to its argument and leaves the state alone; Write reports the whole length; Size is the number of bytes Sum appends, BlockSize is 1.", "quantifier": "all sequences of Write/Sum/Reset calls", "why_tests_cant": "every chunking of every input", "anchors": ["crc.go:crc8.Write", "crc.go:crc8.Sum8", "crc.go:crc8.Sum", "crc.go:crc8.Reset", "crc.go:Checksum"]}
{"id": "C03", "title": "Packet wire format", "statement": "For a payload of 1..255 or 257..65535 bytes WritePacket appends exactly: 0x55, the length (one byte up to 255, otherwise 0x00 followed by a big-endian 16-bit length), the payload, and one byte making the sum of everything after 0x55 zero mod 256. Bytes already in the writer are unchanged. For a 256-byte payload the length byte written is 0x00 and no length follows, so the packet is malformed (finding).", "quantifier": "all payloads, all previous writer contents", "why_tests_cant": "payload sizes and contents unbounded; boundary 256 is missed by the shipped tests", "anchors": ["packet.go:PacketWriter.WritePacket", "packet.go:largePacketMinLen"]}
{"id": "C04", "title": "Empty payload writes nothing", "statement": "WritePacket of an empty payload returns an error and leaves Bytes() unchanged; every non-empty payload is accepted and never shrinks or alters what was written before.", "quantifier": "all writer histories", "why_tests_cant": "holds for every history of calls", "anchors": ["packet.go:PacketWriter.WritePacket", "packet.go:PacketWriter.Bytes"]}
{"id": "C05", "title": "Packet stream round trip", "statement": "Writing any sequence of payloads (each 1..65535 bytes, not exactly 256) with one PacketWriter and reading Bytes() with PacketReader returns the same payloads in the same order and then io.EOF, forever. A single payload survives write-then-read if and only if its length is 1..255 or 257..65535.", "quantifier": "all sequences of payloads of all lengths", "why_tests_cant": "unbounded sequences and lengths", "anchors": ["packet.go:PacketWriter.WritePacket", "packet.go:PacketReader.ReadPacket"]}
{"id": "C06", "title": "Leading junk and trailing padding are invisible", "statement": "Reading a frame made of arbitrary bytes other than 0x55, then well-formed packets (each optionally followed by more non-0x55 filler), yields exactly those packets and then io.EOF, whatever the filler (for instance the zero padding of HID reports).", "quantifier": "all filler strings without 0x55, all packet sequences", "why_tests_cant": "unbounded filler and packets", "anchors": ["packet.go:PacketReader.ReadPacket"]}
{"id": "C07", "title": "Every delivered payload is really in the frame", "statement": "Whenever ReadPacket returns a payload without error, the unread part of the frame is: bytes without 0x55, then 0x55, a length header announcing exactly len(payload), the payload, a checksum byte that makes the sum zero, and then exactly the bytes that remain to be read. No byte beyond the end of the frame is ever part of a delivered payload, even when the underlying array holds more.", "quantifier": "all frames, all contents of the underlying array beyond the frame", "why_tests_cant": "adversarial frames are unbounded", "anchors": ["packet.go:PacketReader.ReadPacket", "packet.go:parsePacket", "packet.go:parseHeader"]}
{"id": "C08", "title": "Reading a frame terminates", "statement": "Repeatedly calling ReadPacket on any frame reaches io.EOF (or a panic) after at most (number of 0x55 bytes in the frame) calls that return something else; every call that does not return EOF strictly shortens the unread frame; after EOF every later call returns EOF and changes nothing.", "quantifier": "all frames", "why_tests_cant": "loop termination over all inputs", "anchors": ["packet.go:PacketReader.ReadPacket", "cmd/ipod/main.go:processFrames"]}
{"id": "C09", "title": "ReadPacket never crashes on malformed input (refuted) and exactly when it does", "statement": "Expected: ReadPacket never panics. In fact ReadPacket panics if and only if at least 3 bytes follow the next 0x55, the announced packet extends past the end of the frame, and either it also extends past the capacity of the underlying array or the bytes of the array beyond the frame happen to make the checksum zero. The short-packet check after the slice expression is dead code.", "quantifier": "all frames and all capacities", "why_tests_cant": "needs the exact set of crashing inputs", "anchors": ["packet.go:parsePacket"]}
{"id": "C10", "title": "A truncated packet is never delivered and never reported as truncated", "statement": "If the announced length runs past the end of the frame, no payload is returned: the call panics or returns 'invalid checksum'; io.ErrUnexpectedEOF is returned exactly when fewer than 3 bytes follow the start byte.", "quantifier": "all frames whose announced length exceeds the remaining bytes", "why_tests_cant": "all truncation points of all packets", "anchors": ["packet.go:parsePacket", "packet.go:parseHeader"]}
{"id": "C11", "title": "Resynchronisation after a corrupt packet", "statement": "After a packet rejected for its checksum whose bytes contain no further 0x55, the next ReadPacket call delivers the following well-formed packet of the same frame.", "quantifier": "all corrupt packets without inner 0x55, all following packets and filler", "why_tests_cant": "unbounded inputs", "anchors": ["packet.go:PacketReader.ReadPacket"]}
{"id": "C12", "title": "Lingo/command id packing", "statement": "NewLingoCmdID(l,c) with l<256 gives back LingoID()=l and CmdID()=c for every 16-bit c; two such pairs give the same id only if equal; every 24-bit id is the packing of its own parts.", "quantifier": "all lingo and command ids", "why_tests_cant": "2^24 pairs, plus ids above 24 bits", "anchors": ["lingo.go:NewLingoCmdID", "lingo.go:LingoCmdID.LingoID", "lingo.go:LingoCmdID.CmdID"]}
{"id": "C13", "title": "Wire form of command ids", "statement": "The id prefix of a marshalled command is the lingo byte followed by the command id in 2 big-endian bytes for lingo 0x04 and 1 byte otherwise, and parsing that prefix gives the id back, for every id that fits; for other lingos a command id above 255 is silently truncated to its low byte; a packet too short for its id prefix is an error.", "quantifier": "all ids, all following bytes", "why_tests_cant": "all ids and all suffixes", "anchors": ["lingo.go:marshalLingoCmdID", "lingo.go:unmarshalLingoCmdID", "lingo.go:cmdIDLen"]}
{"id": "C14", "title": "Fixed-size command round trip", "statement": "For every registered fixed-size payload type except ACKDataDropped, every field value and every serde mode, MarshalCmd then UnmarshalCmd (serdes in the same mode) returns the same id, the same payload, and the transaction that was put on the wire, with no error.", "quantifier": "all fixed-size registered types, all field values, all transactions, both modes", "why_tests_cant": "about 150 types times all field values", "anchors": ["cmd.go:CommandSerde.MarshalCmd", "cmd.go:CommandSerde.UnmarshalCmd", "lingo.go:Lookup"]}
{"id": "C15", "title": "Variable-size command round trip", "statement": "For every registered type with both a MarshalBinary and UnmarshalBinary, any well-formed value within its wire limits survives MarshalCmd then UnmarshalCmd when the command carries a transaction exactly when the serde has transactions enabled.", "quantifier": "all values of the variable-size types, both modes", "why_tests_cant": "unbounded byte strings and lists", "anchors": ["cmd.go:CommandSerde.MarshalCmd", "cmd.go:CommandSerde.UnmarshalCmd", "lingo-general/general.go", "lingo-extremote/extremote.go", "lingo-audio/audio.go", "lingo-simpleremote/simpleremote.go"]}
{"id": "C16", "title": "Payload type selection by size", "statement": "UnmarshalCmd picks the first registered type for the id whose size equals the remaining length (no transaction) or the remaining length minus 2 (transaction present), irrespective of the transaction mode. Consequently a general ACKDataDropped without transaction is decoded as an ACKPending with a transaction (finding), and no other pair of registered types sharing an id can be confused.", "quantifier": "all registered ids and all packet lengths", "why_tests_cant": "all ids times all lengths", "anchors": ["lingo.go:Lookup", "cmd.go:CommandSerde.UnmarshalCmd", "lingo-general/general.go:Lingos"]}
{"id": "C17", "title": "Transaction mode follows the last control command", "statement": "After any sequence of MarshalCmd/UnmarshalCmd calls, TrxEnabled is true iff the last command among RequestIdentify, IdentifyDeviceLingoes and StartIDPS whose id was processed was StartIDPS (initial value if there was none); no other command, decodable or not, changes it; a failed call still updates it once the id has been processed.", "quantifier": "all histories of commands and packets", "why_tests_cant": "unbounded histories", "anchors": ["cmd.go:CommandSerde.handleCmdID", "cmd.go:CommandSerde.MarshalCmd", "cmd.go:CommandSerde.UnmarshalCmd"]}
{"id": "C18", "title": "Transaction ids go on the wire exactly when enabled and present", "statement": "A successful MarshalCmd produces id prefix, then the 2-byte big-endian transaction if and only if the command has one and transactions are enabled (after taking the command's own effect on the mode into account), then the payload encoding and nothing else.", "quantifier": "all commands, both modes", "why_tests_cant": "all commands", "anchors": ["cmd.go:CommandSerde.MarshalCmd"]}
{"id": "C19", "title": "Unknown commands are preserved verbatim", "statement": "A packet whose id is not registered (or whose id is shared and whose length matches none of its types) gives an error together with the parsed id, no transaction, and a payload holding exactly the bytes after the id.", "quantifier": "all packets with unknown ids", "why_tests_cant": "all unknown ids and bodies", "anchors": ["cmd.go:CommandSerde.UnmarshalCmd", "lingo.go:Lookup"]}
{"id": "C20", "title": "UnmarshalCmd never crashes on malformed input (refuted) and exactly when it does", "statement": "Expected: UnmarshalCmd never panics. In fact it panics if and only if the packet is a RequestApplicationLaunch with fewer than 3 payload bytes, or a SetFIDTokenValues in which a token reached by the parser is an EA-protocol token with an empty body or (on Go versions where binary.Size(nil) panics) has an unknown type.", "quantifier": "all packets, both modes, both runtime behaviours", "why_tests_cant": "needs the exact set of crashing inputs", "anchors": ["lingo-general/general.go:RequestApplicationLaunch.UnmarshalBinary", "lingo-general/general.go:FIDEAProtocolToken.UnmarshalBinary", "lingo-general/general.go:FIDTokenValue.UnmarshalBinary", "cmd.go:CommandSerde.UnmarshalCmd"]}
{"id": "C21", "title": "Short fixed-size payloads are rejected, longer ones lose only their tail", "statement": "When an id has a single fixed-size type, a body too short for it (after the transaction expected in the current mode) is an error, and a longer body decodes to the fields read from its front, ignoring the tail.", "quantifier": "all ids with one fixed-size type, all body lengths", "why_tests_cant": "all lengths", "anchors": ["cmd.go:CommandSerde.UnmarshalCmd", "lingo.go:Lookup"]}
{"id": "C22", "title": "Which payloads can be marshalled", "statement": "MarshalCmd never panics on a payload it could have decoded and fails exactly for a nil payload, for payload types holding a slice or interface without a MarshalBinary method, and for token lists containing a token or ack with no encoding; a failure returns no bytes.", "quantifier": "all commands over all payload types", "why_tests_cant": "all payload types and values", "anchors": ["cmd.go:CommandSerde.MarshalCmd", "lingo-general/general.go:FIDTokenValue.MarshalBinary"]}
{"id": "C23", "title": "Registry is consistent", "statement": "After registering any list of lingo tables, LookupID of a payload type returns the id of its last registration, every type registered under an id is a candidate of Lookup for that id in registration order, ids never registered are not found, and a bad id tag stops that table keeping the entries before it. In the shipped tables every type has one id and every id/type pair is inverse under LookupID and Lookup.", "quantifier": "all sequences of RegisterLingos calls", "why_tests_cant": "arbitrary registration histories", "anchors": ["lingo.go:RegisterLingos", "lingo.go:storeMapping", "lingo.go:LookupID", "lingo.go:Lookup"]}
{"id": "C24", "title": "DumpLingos does not depend on map order", "statement": "DumpLingos lists every registered id exactly once, in increasing id order, with the first type registered for it, whatever order the map iteration yields.", "quantifier": "all registries, all map iteration orders", "why_tests_cant": "map iteration order is random at run time", "anchors": ["lingo.go:DumpLingos"]}
{"id": "C25", "title": "Respond answers in kind", "statement": "Respond writes exactly one command whose id is the registered id of the payload type, whose payload is the given payload and whose transaction equals the request's (nil if the request had none); if the payload type is not registered nothing is written; a non-pointer payload panics.", "quantifier": "all requests, payloads and registries", "why_tests_cant": "all requests", "anchors": ["cmd.go:Respond", "cmd.go:BuildCommand", "cmd.go:Transaction.Copy"]}
{"id": "C26", "title": "Transaction numbers from TrxNext", "statement": "Under any interleaving of TrxNext calls by any number of goroutines with no reset in between, the k-th call to take effect returns (start + k) mod 65536; any 65536 consecutive calls return pairwise distinct numbers; after TrxReset the next is 1.", "quantifier": "all schedules of atomic TrxNext/TrxReset calls", "why_tests_cant": "schedules cannot be enumerated by tests", "anchors": ["cmd.go:TrxNext", "cmd.go:TrxReset", "cmd.go:Send"]}
{"id": "C27", "title": "Transaction arithmetic wraps", "statement": "Delta(d) is the transaction plus d modulo 65536 for every int d, Delta(-d) undoes Delta(d), Copy returns an equal value, and both return nil for nil.", "quantifier": "all transactions and all ints", "why_tests_cant": "2^16 times all ints", "anchors": ["cmd.go:Transaction.Delta", "cmd.go:Transaction.Copy"]}
{"id": "C28", "title": "Replies carry the request's transaction", "statement": "Every command written by HandleGeneral, HandleExtRemote, HandleDispRemote and HandleAudio has the transaction of the request, except the GetDevAuthenticationInfo sent after EndIDPS(Continue), which takes the next number of the counter.", "quantifier": "all requests, all device states, all devices", "why_tests_cant": "all requests and devices", "anchors": ["lingo-general/handler.go:HandleGeneral", "lingo-extremote/handler.go:HandleExtRemote", "lingo-dispremote/handler.go:HandleDispRemote", "lingo-audio/handler.go:HandleAudio"]}
{"id": "C29", "title": "Acks name the command they acknowledge", "statement": "Every ACK or ACKPending written by any handler for a request decoded from the wire carries the low bits of the request's command id (8 bits, 16 bits for the extended interface lingo).", "quantifier": "all requests and device states", "why_tests_cant": "all requests", "anchors": ["lingo-general/handler.go:ackSuccess", "lingo-general/handler.go:ackPending", "lingo-extremote/handler.go:ackSuccess", "lingo-dispremote/handler.go:ackSuccess"]}
{"id": "C30", "title": "Remote UI mode follows Enter/Exit", "statement": "For any history of general-lingo requests, RequestRemoteUIMode answers 1 iff the last EnterRemoteUIMode/ExitRemoteUIMode was Enter (initial mode if none) and GetUIMode answers the same mode. Entering when already entered, or exiting when not entered, is acknowledged at once; an actual change is acknowledged as pending before the mode is set and as success after it.", "quantifier": "all request histories", "why_tests_cant": "unbounded histories", "anchors": ["lingo-general/handler.go:HandleGeneral", "cmd/ipod/general.go:DevGeneral"]}
{"id": "C31", "title": "An acknowledged SetUIMode takes effect (refuted)", "statement": "Expected: after a SetUIMode(m) request that is acknowledged with success, GetUIMode returns m. In fact SetUIMode never changes the mode on any device and is always acknowledged with success.", "quantifier": "all device states, all modes", "why_tests_cant": "all states", "anchors": ["lingo-general/handler.go:HandleGeneral"]}
{"id": "C32", "title": "FID tokens: one ack per token, in order, and all are kept", "statement": "For every SetFIDTokenValues the device receives every token in order and the reply holds exactly one ack per token, in order, with the same token id; the tokens known to the device are those of all SetFIDTokenValues since the last StartIDPS, in order.", "quantifier": "all token lists and request histories", "why_tests_cant": "unbounded lists and histories", "anchors": ["lingo-general/handler.go:ackFIDTokenValues", "lingo-general/handler.go:HandleGeneral", "cmd/ipod/general.go:DevGeneral.SetToken"]}
{"id": "C33", "title": "Accessory certificate reassembly", "statement": "Whenever a certificate is handed to the device it is the concatenation, in arrival order, of the section data of all version>=2 RetDevAuthenticationInfo messages since and including the last one with section number 0 (since start if none); it is handed over exactly when a section with number >= the announced maximum arrives. In particular sections 0..n sent in order give their concatenation exactly once.", "quantifier": "all message histories and section contents", "why_tests_cant": "unbounded histories", "anchors": ["lingo-general/handler.go:HandleGeneral", "lingo-general/handler.go:accCertBuf"]}
{"id": "C34", "title": "End of IDPS", "statement": "EndIDPS always tells the device the status; Continue gives IDPSStatus OK then GetDevAuthenticationInfo, Reset gives TimeLimitNotExceeded, Abandon gives WillNotAccept, any other status gives no reply; StartIDPS resets the transaction counter so the next Send uses 1.", "quantifier": "all statuses and states", "why_tests_cant": "all states", "anchors": ["lingo-general/handler.go:HandleGeneral"]}
{"id": "C35", "title": "Authentication starts the audio lingo once per certificate", "statement": "The server sends GetAccSampleRateCaps before handling a general message exactly when it is a RetDevAuthenticationInfo that is version 1 or the last certificate section, and never otherwise.", "quantifier": "all commands and histories", "why_tests_cant": "all commands", "anchors": ["cmd/ipod/main.go:handlePacket", "lingo-audio/handler.go:Start"]}
{"id": "C36", "title": "Handlers answer exactly the requests they should", "statement": "For every registered request type and every device, each handler writes exactly the reply types listed for it in the specification table (none for messages that are not requests); a payload that failed to decode gets no reply; an unknown general command gets one ACK with status UnknownID; the other lingos ignore unknown commands.", "quantifier": "all payload types and values, all devices", "why_tests_cant": "all payloads", "anchors": ["lingo-general/handler.go:HandleGeneral", "lingo-extremote/handler.go:HandleExtRemote", "lingo-dispremote/handler.go:HandleDispRemote", "lingo-audio/handler.go:HandleAudio"]}
{"id": "C37", "title": "Every reply reaches the wire (refuted)", "statement": "Expected: every reply a handler produces can be marshalled. In fact the replies to GetiPodAuthenticationInfo, GetNowPlayingFocusApp, GetCurrentPlayingTrackChapterName, GetIndexedEQProfileName, display-remote GetArtworkFormats and GetTrackArtworkTimes are never sent, nor is the ack list when a token is unknown; all other replies are.", "quantifier": "all requests and devices", "why_tests_cant": "needs all replies of all handlers", "anchors": ["cmd.go:CommandSerde.MarshalCmd", "lingo-general/general.go:RetiPodAuthenticationInfo", "lingo-general/general.go:RetNowPlayingFocusApp", "lingo-extremote/extremote.go:ReturnCurrentPlayingTrackChapterName", "lingo-dispremote/dispremote.go:RetIndexedEQProfileName"]}
{"id": "C38", "title": "HID frame round trip", "statement": "For the default and the legacy report tables (and any table with unique one-byte ids, usable device-to-accessory lengths), WriteFrame(data) followed by ReadFrame gives data followed by fewer zero bytes than one report holds, for every non-empty data; several frames written one after the other are read back in order.", "quantifier": "all frames of all lengths, all such tables", "why_tests_cant": "unbounded frame sizes", "anchors": ["hid/hid.go:Encoder.WriteFrame", "hid/hid.go:Decoder.ReadFrame", "hid/report_def.go:ReportDefs.Pick", "hid/report_def.go:ReportDefs.Find"]}
{"id": "C39", "title": "Shape of the report sequence", "statement": "WriteFrame emits reports each with the id of a device-to-accessory definition and exactly that definition's payload size of data, with link control 0x00 for a single report, otherwise 0x02, then 0x03 zero or more times, then 0x01; an empty frame emits nothing; with no usable definition it returns an error and emits nothing.", "quantifier": "all frames, all tables", "why_tests_cant": "unbounded frames", "anchors": ["hid/hid.go:Encoder.WriteFrame"]}
{"id": "C40", "title": "WriteFrame terminates", "statement": "WriteFrame terminates on every frame when the definition it falls back to (the last device-to-accessory one) has Len >= 2, with at most len(data) reports. A frame that some definition can hold takes exactly one report whatever the fallback is; a longer one never terminates when the fallback has Len 1, and panics when it has Len 0 or less.", "quantifier": "all frames, all tables", "why_tests_cant": "non-termination", "anchors": ["hid/hid.go:Encoder.WriteFrame", "hid/report_def.go:ReportDef.MaxPayload"]}
{"id": "C41", "title": "Pick chooses the first report that fits", "statement": "Pick returns the first definition of the requested direction whose payload fits, else the last definition of that direction, else an error; for the legacy table that is the smallest that fits, for the default table it is not (finding). The legacy table has the ids 1 to 21, up to 12 to the accessory and the others from it, the default one 1 to 9, all to the accessory; finding a report by its id gives the definition with that id.", "quantifier": "all sizes, all tables", "why_tests_cant": "all sizes", "anchors": ["hid/report_def.go:ReportDefs.Pick"]}
{"id": "C42", "title": "HID reassembly follows link control", "statement": "ReadFrame returns the concatenation of report payloads from the last report that starts a frame (0x00 or 0x02; from the first report read if none does) up to the first report that ends one (0x00 or 0x01), ignoring reports with other link-control values, cutting each payload to its definition's size; an unknown report id or a read error ends the call with that error; nothing from an earlier ReadFrame leaks into a later one.", "quantifier": "all report sequences", "why_tests_cant": "unbounded sequences", "anchors": ["hid/hid.go:Decoder.ReadFrame"]}
{"id": "C43", "title": "Raw report encoding round trip", "statement": "WriteReport then ReadReport over a packet-preserving device returns the same report for every report with 1..1022 data bytes; a device read of fewer than 3 bytes is an error, and a device error is passed through. A report given as bytes (SingleReport) is read the same, but crashes on fewer than 2 bytes, and is the same at every read: a decoder on it never returns unless the report ends a frame.", "quantifier": "all reports, all read results", "why_tests_cant": "all reports", "anchors": ["hid/report_transport.go:rawReportWriter.WriteReport", "hid/report_transport.go:rawReportReader.ReadReport"]}
{"id": "C44", "title": "Packets survive the HID transport", "statement": "Any sequence of packets written to one frame, sent with WriteFrame, received with ReadFrame (default or legacy table) and read with PacketReader gives exactly those packets and then EOF: the padding is invisible.", "quantifier": "all packet sequences", "why_tests_cant": "composition over unbounded sizes", "anchors": ["hid/hid.go", "packet.go"]}
{"id": "C45", "title": "Trace message text round trip", "statement": "Every message with a valid direction and non-empty data marshals to one line (direction sign, space, upper-case hex bytes separated by single spaces) containing no newline, and unmarshalling that text gives the message back; other messages are refused.", "quantifier": "all messages", "why_tests_cant": "unbounded data", "anchors": ["trace/trace.go:Msg.MarshalText", "trace/trace.go:Msg.UnmarshalText"]}
{"id": "C46", "title": "Trace file round trip", "statement": "Reading a file written by any sequence of successful WriteMsg calls (each message at most 21844 bytes) returns the same directions and data in order with timestamps 0,1,2,..., then io.EOF forever; a longer message makes the reader fail with a sticky error.", "quantifier": "all message sequences", "why_tests_cant": "unbounded sequences", "anchors": ["trace/trace.go:Writer.WriteMsg", "trace/trace.go:Reader.ReadMsg"]}
{"id": "C47", "title": "Malformed trace lines are isolated", "statement": "In a file mixing valid lines, blank lines and malformed lines, the valid messages are returned in order with consecutive timestamps, each malformed line gives exactly one error, blank lines give nothing.", "quantifier": "all line sequences", "why_tests_cant": "unbounded files", "anchors": ["trace/trace.go:Reader.ReadMsg"]}
{"id": "C48", "title": "Crash while writing a trace", "statement": "If a trace file is cut at any byte, reading it returns the messages whose lines are complete, unchanged and in order, then at most one more result: an error, or a message whose data is a prefix of the cut message's data with the same direction; then EOF.", "quantifier": "all message sequences and all crash points", "why_tests_cant": "every crash point", "anchors": ["trace/trace.go:Writer.WriteMsg", "trace/trace.go:Reader.ReadMsg"]}
{"id": "C49", "title": "Tracing is transparent", "statement": "Read and Write through NewTracer return exactly the byte count, data and error of the underlying device for every device behaviour, even when the trace writer fails; exactly the successful non-empty transfers are recorded, in order, with the right direction.", "quantifier": "all device behaviours and call histories", "why_tests_cant": "unbounded histories", "anchors": ["trace/trace.go:tracer.Read", "trace/trace.go:tracer.Write"]}
{"id": "C50", "title": "Replay reproduces the recorded input", "statement": "Replaying a recorded trace through a direction-filtered reader returns, read by read, the data of the successful device reads of the recorded session (for the same buffer size), then EOF, whatever was written in between.", "quantifier": "all sessions", "why_tests_cant": "unbounded sessions", "anchors": ["trace/trace.go:traceDirReader.Read", "trace/trace.go:NewTracer", "cmd/ipod/main.go"]}
{"id": "C51", "title": "Trace queue is a FIFO with per-direction removal", "statement": "For any sequence of Enqueue (valid directions), Head, Dequeue and DequeueDir calls, the queue behaves like a plain list: Head is the oldest message, Dequeue removes it, DequeueDir(d) removes and returns the oldest message of direction d leaving the others in order, nil when there is none.", "quantifier": "all operation sequences", "why_tests_cant": "unbounded sequences", "anchors": ["trace/trace.go:Queue"]}
{"id": "C52", "title": "Queue with an invalid direction", "statement": "Enqueue of a message whose direction is neither in nor out panics, yet leaves the message at the back of the queue so that it is later returned by Head and makes Dequeue panic; DequeueDir never returns it.", "quantifier": "all queue states", "why_tests_cant": "all states", "anchors": ["trace/trace.go:Queue.Enqueue", "trace/trace.go:Queue.dirList"]}
{"id": "C53", "title": "Trace view terminates and shows frames in head order", "statement": "Viewing any recorded trace terminates, every step consumes at least one message, and messages of one direction are consumed in order. Expected that every message is consumed; in fact an unfinished frame in one direction ends the view and drops the other direction's remaining messages (finding).", "quantifier": "all traces", "why_tests_cant": "unbounded traces", "anchors": ["cmd/ipod/main.go:dumpTrace", "trace/trace.go:Queue.DequeueDir"]}
{"id": "C54", "title": "Recording over an existing file (refuted)", "statement": "Expected: after recording, the trace file holds exactly the session. In fact, as the file is opened without truncation, the bytes of an older longer file remain after the new ones.", "quantifier": "all old and new contents", "why_tests_cant": "all file contents", "anchors": ["cmd/ipod/main.go:newTraceFile"]}
{"id": "C55", "title": "Concurrent tracing keeps lines whole", "statement": "When one goroutine reads and another writes through the same tracer (send mode), under every interleaving of their trace writes the file is a sequence of whole lines and each direction's messages appear in that goroutine's order.", "quantifier": "all interleavings of atomic trace writes", "why_tests_cant": "schedules", "anchors": ["trace/trace.go:Writer.WriteMsg", "cmd/ipod/main.go"]}
{"id": "C56", "title": "Button state codec", "statement": "Every 32-bit button mask marshals to its little-endian bytes with trailing zero bytes removed (at least one byte) and unmarshals to itself; any 1..4 byte string unmarshals to the little-endian value, longer strings use the first 4 bytes, the empty string is an error.", "quantifier": "all masks and strings", "why_tests_cant": "2^32 masks", "anchors": ["lingo-simpleremote/simpleremote.go:ButtonStates", "lingo-simpleremote/simpleremote.go:ContextButtonStatus"]}
{"id": "C57", "title": "FID token list codec", "statement": "A list of at most 255 encodable tokens, each encoding to at most 255 bytes, survives SetFIDTokenValues MarshalBinary then UnmarshalBinary; ack lists likewise; tokens parsed are always consistent with their id.", "quantifier": "all token lists", "why_tests_cant": "unbounded lists", "anchors": ["lingo-general/general.go:SetFIDTokenValues", "lingo-general/general.go:RetFIDTokenValueACKs", "lingo-general/general.go:FIDTokenValue"]}
{"id": "C58", "title": "Oversized token lists corrupt silently (refuted round trip)", "statement": "Expected: a token list that marshals without error unmarshals to itself. In fact counts and lengths above 255 wrap to one byte without error.", "quantifier": "all token lists", "why_tests_cant": "boundary at 256", "anchors": ["lingo-general/general.go:SetFIDTokenValues.MarshalBinary", "lingo-general/general.go:RetFIDTokenValueACKs.MarshalBinary"]}
{"id": "C59", "title": "Certificate section parsing", "statement": "RetDevAuthenticationInfo parsing succeeds iff there are at least 2 bytes, and at least 4 when the major version is 2 or more; version, section numbers and data are then the corresponding bytes, and version-1 messages carry no certificate data.", "quantifier": "all packets", "why_tests_cant": "all byte strings", "anchors": ["lingo-general/general.go:RetDevAuthenticationInfo.UnmarshalBinary"]}
{"id": "C60", "title": "Display-remote state info codec", "statement": "For each of the 16 known info types and every field value RetiPodStateInfo survives MarshalBinary then UnmarshalBinary; unknown types are an error when parsing.", "quantifier": "all info types and values", "why_tests_cant": "all values", "anchors": ["lingo-dispremote/dispremote.go:RetiPodStateInfo"]}
{"id": "C61", "title": "Display-remote track info is sent in full (refuted)", "statement": "Expected: the reply to GetIndexedPlayingTrackInfo contains the requested text. In fact, for every info type with a text field only the type byte is sent, because the encoding error is ignored; for the two others the full data is sent.", "quantifier": "all info types and values", "why_tests_cant": "all values", "anchors": ["lingo-dispremote/dispremote.go:RetIndexedPlayingTrackInfo.MarshalBinary"]}
{"id": "C62", "title": "Extended-remote list codecs", "statement": "Artwork format lists, sample rate lists, name, serial, model, title, artist and album strings survive MarshalBinary then UnmarshalBinary for every value; an artwork list with a trailing partial entry is an error; a sample-rate list ignores up to 3 trailing bytes.", "quantifier": "all lists and strings", "why_tests_cant": "unbounded lists", "anchors": ["lingo-extremote/extremote.go:RetArtworkFormats", "lingo-audio/audio.go:RetAccSampleRateCaps", "lingo-general/general.go:ReturniPodModelNum"]}
{"id": "C63", "title": "Booleans and strings", "statement": "ByteToBool(BoolToByte(b)) = b; only byte 1 is true; StringToBytes(s) is the bytes of s followed by one zero byte.", "quantifier": "all values", "why_tests_cant": "trivial but universal", "anchors": ["util.go"]}
{"id": "C64", "title": "Requests are answered in order, one packet per frame", "statement": "For every received frame the server emits the replies of the contained commands in the order of the commands and of each handler's writes, each reply as one frame holding exactly one packet that decodes back to that reply; a reply that cannot be marshalled emits nothing.", "quantifier": "all frames, all server states", "why_tests_cant": "unbounded histories", "anchors": ["cmd/ipod/main.go:processFrames"]}
{"id": "C65", "title": "Garbage in, nothing out", "statement": "A frame without a decodable start byte, and any frame that fails to be received, produce no output and leave device, mode and counters unchanged.", "quantifier": "all frames without 0x55, all read errors", "why_tests_cant": "all garbage", "anchors": ["cmd/ipod/main.go:processFrames"]}
{"id": "C66", "title": "Replies use the transaction mode of their request (refuted)", "statement": "Expected: a reply is encoded in the transaction mode in force when its request was received. In fact all commands of a frame are decoded before any reply is encoded, so a later StartIDPS or IdentifyDeviceLingoes in the same frame changes the encoding of earlier replies; with a single command per frame the expectation holds.", "quantifier": "all frames with several commands", "why_tests_cant": "all frames", "anchors": ["cmd/ipod/main.go:processFrames", "cmd.go:CommandSerde.handleCmdID"]}
{"id": "C67", "title": "The server never crashes on accessory input (refuted)", "statement": "Expected: no input from the accessory crashes the server. In fact a single HID report suffices (a truncated packet, an empty RequestApplicationLaunch, or an empty EA-protocol token). Input that avoids the exactly characterised packets never crashes it.", "quantifier": "all input histories", "why_tests_cant": "unbounded histories", "anchors": ["cmd/ipod/main.go:processFrames", "packet.go:parsePacket", "lingo-general/general.go"]}
{"id": "C68", "title": "Replay of a recorded session gives the same replies", "statement": "Running the server on the replay of a recorded trace processes the same frames and emits the same replies as the recorded session, provided both started in the same state and the recorded device's report reads never failed except by io.EOF. Read errors are not recorded; with one in the middle of a frame the replay can send replies the session did not (finding).", "quantifier": "all sessions, devices and report definitions that fit the trace reader", "why_tests_cant": "unbounded sessions", "anchors": ["cmd/ipod/main.go:processFrames", "trace/trace.go"]}
{"id": "C69", "title": "Getters answer with the device's own values", "statement": "The reply to each request for a device value (name, serial number, software and lingo versions, maximum payload, preferences, UI mode, lingo options, event masks) holds exactly the value the device's method returned when the request was handled, echoing the requested lingo or class; strings are followed by one zero byte.", "quantifier": "all devices, device states and requests", "why_tests_cant": "arbitrary device implementations", "anchors": ["lingo-general/handler.go:HandleGeneral"]}
{"id": "C70", "title": "The device is called exactly as the request says", "statement": "For every general request the sequence of device method calls with their arguments is the one of the specification table: setters receive the values of the request (restore flag true iff its byte is 1), getters are called once, and no other method is called.", "quantifier": "all devices, states and requests", "why_tests_cant": "arbitrary device implementations and values", "anchors": ["lingo-general/handler.go:HandleGeneral"]}
{"id": "C71", "title": "Track info text reaches the accessory (refuted)", "statement": "Expected: the display-remote reply to GetIndexedPlayingTrackInfo carries the text the handler gives (chapter, artist, album, genre, title, composer, lyrics). In fact for info types 1..7 the packet ends after the info type byte, because the structure's encoding error is dropped.", "quantifier": "all requests, transactions and modes", "why_tests_cant": "all info types and modes", "anchors": ["lingo-dispremote/dispremote.go:RetIndexedPlayingTrackInfo.MarshalBinary", "lingo-dispremote/handler.go:HandleDispRemote"]}
{"id": "C72", "title": "A lost device ends the server (refuted)", "statement": "Expected: when the device keeps failing, the server ends. In fact it ends only at io.EOF: as long as reading a frame fails with any other error, which is what a removed device does, the loop goes on for ever without pause.", "quantifier": "all transports and devices that keep failing, all server states", "why_tests_cant": "unbounded executions", "anchors": ["cmd/ipod/main.go:processFrames"]}
{"id": "C73", "title": "A frame is valid until the next ReadFrame and is overwritten by it", "statement": "The frame returned by the HID frame reader, and every packet sliced from it, keeps its bytes until ReadFrame is called again, whatever is decoded and whatever certificate sections arrive in between. The next frame is written over it byte by byte when it comes in one report and fits the buffer; the bytes beyond the new frame remain. The data of a raw report is likewise overwritten by the next report.", "quantifier": "all report definitions, devices, buffer growth policies and reachable memories", "why_tests_cant": "aliasing over unbounded histories", "anchors": ["hid/hid.go:Decoder.ReadFrame", "hid/report_transport.go:rawReportReader.ReadReport", "packet.go:PacketReader.ReadPacket"]}
{"id": "C74", "title": "What a device keeps of a decoded command keeps its value (refuted)", "statement": "Expected: a payload handed to the device never changes. In fact an EA protocol string (and an unknown payload) is a slice of the frame buffer and shows the bytes of the next frame. Until the next ReadFrame every decoded command is unchanged, and afterwards everything but the bytes of protocol strings and unknown payloads is.", "quantifier": "all packets, modes, registries and later histories", "why_tests_cant": "aliasing over unbounded histories", "anchors": ["cmd.go:CommandSerde.UnmarshalCmd", "lingo-general/general.go:FIDEAProtocolToken.UnmarshalBinary", "lingo-general/general.go:FIDTokenValue"]}
{"id": "C75", "title": "Behaviour on a frame depends on that frame only (refuted)", "statement": "Expected: what the server does on a frame depends on its state and that frame. In fact a truncated packet is read on into the bytes that earlier frames left behind it in the buffer: two frames that are harmless alone crash the server one after the other. Everything proved for arbitrary bytes behind the frame holds for the real buffer.", "quantifier": "all devices, states, buffer growth policies and histories", "why_tests_cant": "histories of frames", "anchors": ["hid/hid.go:Decoder.ReadFrame", "packet.go:parsePacket", "cmd/ipod/main.go:processFrames"]}
{"id": "C76", "title": "The certificate given to the device", "statement": "The certificate passed to the device is the concatenation of the sections since the last section 0. It keeps its bytes through any further frames and sections until the first section of another certificate arrives, which overwrites it.", "quantifier": "all section sequences, all histories", "why_tests_cant": "aliasing over unbounded histories", "anchors": ["lingo-general/handler.go:HandleGeneral"]}
{"id": "C77", "title": "Every packet is decoded to its one meaning", "statement": "A packet is decoded without error exactly when a reading relation, given per message type independently of the decoders, assigns it a meaning; the command returned is that meaning (id, transaction, every field of the payload, every token) and there is only one. Bytes beyond the last field are ignored. Tokens that the packet cuts off are accepted with zero fields (finding).", "quantifier": "all packets, modes, registries and Go versions", "why_tests_cant": "unbounded packets and token lists", "anchors": ["cmd.go:CommandSerde.UnmarshalCmd", "lingo-general/general.go:FIDTokenValue.UnmarshalBinary", "lingo-general/general.go:SetFIDTokenValues.UnmarshalBinary", "lingo-dispremote/dispremote.go:RetiPodStateInfo.UnmarshalBinary", "lingo-extremote/extremote.go:RetArtworkFormats.UnmarshalBinary"]}
{"id": "C78", "title": "Send mode writes exactly the recorded requests", "statement": "When the tool plays an accessory from a trace file, the device is written exactly the messages recorded as received, in order, cut to 1024 bytes, up to the first one that cannot be read, whatever the device answers, whatever errors its writes give and however the receiving goroutine is interleaved; the replies the receiver computes never reach the device. A recorded session with reads of 3 to 1024 bytes is therefore sent again read for read. A shorter recorded read silently ends the sending (finding).", "quantifier": "all trace files, devices, device results and interleavings of the two goroutines", "why_tests_cant": "unbounded files and schedules", "anchors": ["cmd/ipod/main.go:send", "trace/trace.go:NewTraceDirReader", "hid/report_transport.go:rawReportReader.ReadReport", "hid/report_transport.go:rawReportWriter.WriteReport"]}
{"id": "C79", "title": "A crash is reproduced by replaying its trace", "statement": "If the server, serving a device through a tracer, crashes on a frame, then replaying the file written up to then crashes too, after reading the same number of frames and computing the same replies, provided the device's reads did not fail before. The recorded server crashes only on a frame it has read. There is one read at which it crashes: the replay of what was recorded before it runs to its end, and with it crashes, whatever replies were recorded after it. With failing reads a replay can crash although the session did not, and need not crash although the session did (findings).", "quantifier": "all devices, report tables, handlers, clocks, session lengths and crash points", "why_tests_cant": "unbounded sessions and crash points", "anchors": ["cmd/ipod/main.go:processFrames", "cmd/ipod/main.go:serve", "cmd/ipod/main.go:replay", "trace/trace.go:NewTracer", "trace/trace.go:NewTraceDirReader"]}
{"id": "C80", "title": "The viewer shows a recorded session in order", "statement": "For a session recorded on a device that takes every write and whose reads do not fail, the trace viewer, unless a frame crashes it, shows exactly the frames and read errors the server received and the frames it sent, in the order in which they happened; received frames as they were, sent frames with the padding of their last report; only frames without a byte (replies that could not be encoded) leave no entry, and nothing is left over.", "quantifier": "all devices, report tables with reports of at most 1023 bytes, handlers, session lengths", "why_tests_cant": "unbounded sessions", "anchors": ["cmd/ipod/main.go:processFrames", "cmd/ipod/main.go:dumpTrace", "trace/trace.go:NewTracer", "trace/trace.go:Queue", "hid/hid.go:Encoder.WriteFrame", "hid/hid.go:Decoder.ReadFrame"]}
{"id": "C81", "title": "Every value has its own name", "statement": "The text of every value of the enumerations shown to users (lingo bits, accessory info types and capabilities, remote control buttons, display info types, play states, track info types) is the name declared for that value, or else the type's name with the number in decimal; no value makes the conversion crash, and different values never have the same text.", "quantifier": "all values of the seven types", "why_tests_cant": "the tables of names and offsets are generated; a wrong offset shows for one value only, and 2^32 values cannot be tried", "anchors": ["lingo-general/lingobit_string.go:String", "lingo-general/accinfotype_string.go:String", "lingo-general/acccapbit_string.go:String", "lingo-simpleremote/contextbuttonbit_string.go:String", "lingo-dispremote/infotype_string.go:String", "lingo-dispremote/playstatustype_string.go:String", "lingo-dispremote/trackinfotype_string.go:String"]}
{"id": "C82", "title": "The text of a mask lists its bits", "statement": "The text of a lingo mask or of a remote control button mask is the texts of exactly the bits set in it, from the lowest to the highest, separated by bars; it never crashes, and different masks have different texts.", "quantifier": "all 32-bit masks", "why_tests_cant": "2^32 masks, and distinctness is about pairs", "anchors": ["lingo-general/general.go:LingoMask.String", "lingo-simpleremote/simpleremote.go:ContextButtonMask.String"]}
{"id": "C83", "title": "Ids and transactions are shown in full", "statement": "A command id is shown as its lingo in two hexadecimal digits and its command in two, or four for the extended interface lingo; a transaction is shown in exactly four. Different ids and transactions have different texts. (Finding: the Go-syntax text of a transaction is the hexadecimal of its text, not of its number.)", "quantifier": "all command ids and transactions", "why_tests_cant": "all 2^24 ids and pairs of them", "anchors": ["lingo.go:LingoCmdID.String", "lingo.go:LingoCmdID.GoString", "cmd.go:Transaction.String", "cmd.go:Transaction.GoString"]}
{"id": "C84", "title": "A log line shows its entry, once and in a fixed order", "statement": "Formatting a log entry never fails; the line has the level's four letters, the time since the start as seconds and microseconds, the message padded to 44 characters, and every field once, by increasing key, whatever the order in which the map is traversed; in colour the level and keys are in the level's colour. If the message and the fields have no line ends the entry is one line.", "quantifier": "all entries with the seven levels, all messages and fields, all times, all traversal orders of the map", "why_tests_cant": "map iteration order is random; all texts", "anchors": ["cmd/ipod/formatter.go:Format", "cmd/ipod/formatter.go:print"]}
{"id": "C85", "title": "Identification is reported exactly", "statement": "Handling requests logs exactly this: at each end of an identification a report listing, in order, the tokens received since its start, with the names of the capabilities set and the items of information of the accessory; after the last section of a certificate what is said of the bytes received; and a warning for each simple remote command. Writing the report never fails, whatever the tokens.", "quantifier": "all sequences of requests (as decoding gives them), all states of the device, all tokens", "why_tests_cant": "the report depends on the whole history since the last start, and on every token's content", "anchors": ["cmd/ipod/general.go:DevGeneral.EndIDPS", "cmd/ipod/general.go:DevGeneral.AccAuthCert", "cmd/ipod/main.go:handlePacket", "lingo-general/general.go:AccCaps"]}
{"id": "C86", "title": "The viewer's log tells the trace", "statement": "The viewer logs one entry for every frame read from the trace, and for every packet in it one for the packet and one for its command, in order, with the direction, the length, the id, transaction and type, and the error if there is one; one entry for every start byte that begins no packet; a warning between a packet and its command if the packet switches transaction numbers on or off; finally EOF; and nothing else. Every entry is one line of text if error texts are.", "quantifier": "all trace files the viewer reads to the end, all report tables, all Go versions", "why_tests_cant": "all files and all contents of frames", "anchors": ["cmd/ipod/main.go:dumpTrace", "cmd/ipod/main.go:logFrame", "cmd/ipod/main.go:logPacket", "cmd/ipod/main.go:logCmd", "cmd/ipod/main.go:dirPrefix", "cmd/ipod/log.go:FrameLogEntry", "cmd/ipod/log.go:CommandLogEntry"]}
{"id": "C87", "title": "The server's log tells the session", "statement": "Logging does not change what the server does. The log of a session up to the end of input has, for every frame read, its length, its packets and commands with their errors and a warning wherever a packet switches transaction numbers on or off, what handling them says (C85), and then for each reply the command, its packet and its frame with the errors of encoding and writing, all in this order; an entry for every failing read; finally EOF; and nothing else.", "quantifier": "all transports, all inputs on which the server ends, all states of the tool's device, all Go versions", "why_tests_cant": "all sessions and all failures of the transport", "anchors": ["cmd/ipod/main.go:processFrames", "cmd/ipod/main.go:handlePacket", "cmd/ipod/main.go:logFrame", "cmd/ipod/main.go:logPacket", "cmd/ipod/main.go:logCmd"]}
{"id": "C88", "title": "The viewer's log repeats the server's log", "statement": "Record a session with write-trace and view the trace: what the viewer logs of the frames, packets and commands the accessory sent, and of transaction numbers being switched on and off, is, entry by entry, what the server logged, errors included; and of the replies sent it shows the same command ids and packet lengths in the same order, leaving out those that could not be encoded. This needs a device that takes all writes and whose reads do not fail, and replies that are packets: a reply of 256 bytes is not, and an accessory can provoke one.", "quantifier": "all sessions on all such devices, all states of the tool, all usable report tables, all contents of memory behind the frames in both runs", "why_tests_cant": "all sessions; the two logs are written by different loops, and the transaction mode depends on the whole history", "anchors": ["cmd/ipod/main.go:processFrames", "cmd/ipod/main.go:dumpTrace", "trace/trace.go:Tracer", "cmd/ipod/log.go:CommandLogEntry"]}
{"id": "C89", "title": "A command changes only what it was given, and stops cleanly when it cannot start", "statement": "Of the tool's commands only serve and send change anything, and only the device they are given and the file named by --write-trace. Each command line either has all it needs or stops at its first problem: a missing path is told as a usage error with the command's help, a path that cannot be opened (or is not a char device) is logged and told as an error; then the exit code is 1, no file has been made and the device has not been used. Otherwise serve answers on the device with the table chosen by --legacy until io.EOF and exits with 0, replay answers to the trace and writes nothing, view logs what the trace shows or exits with 1 if it cannot be read, send starts on its device and trace, and lingos prints the header and one line per registered id, in increasing order, and exits with 0.", "quantifier": "all command lines, all states of files and devices, all errors of the OS", "why_tests_cant": "all files, devices and errors of opening; a test would have to enumerate the orders in which opening can fail", "anchors": ["cmd/ipod/main.go:main", "cmd/ipod/main.go:openDevice", "cmd/ipod/main.go:openTraceFile", "cmd/ipod/main.go:newTraceFile", "cmd/ipod/main.go:UsageError"]}
{"id": "C90", "title": "serve -w, then replay or view: the tool repeats its own session", "statement": "Recording with --write-trace changes nothing but the recorded file: with and without it serve ends or not alike, logs the same and leaves the device alike. Replaying the recorded file logs, entry by entry, what serve logged, but for errors of writing; with a device that takes all writes the logs are equal. Viewing it logs the same entries about what the accessory sent and the same replies. This needs a file that did not exist or was shorter: over a longer one the old tail is replayed as well.", "quantifier": "all devices that follow the io contract and do not fail reads, all sessions, all states of the file system, both report tables", "why_tests_cant": "all sessions; record and replay run in different processes with different transports", "anchors": ["cmd/ipod/main.go:main", "cmd/ipod/main.go:processFrames", "cmd/ipod/main.go:newTraceFile", "trace/trace.go:NewTracer"]}
{"id": "C91", "title": "What the program tells about the player, byte by byte", "statement": "Every request for a fact about the player or the model is answered with one packet whose bytes are fixed: identifier, the request's transaction, and the content listed for that request; a state info or track info answer begins with the info type that was asked for; date and time are the clock's at that moment; the signature returned for a challenge is the challenge itself. No method of the device is called and its state does not change.", "quantifier": "all requests of the listed types with all field values, all devices and device states, all clocks, all earlier histories, both transaction modes", "why_tests_cant": "A test sees a few requests against one device and one clock; that the answer is independent of fields, device, history and mode, and that info types are echoed for every type, is a statement about all of them.", "anchors": ["lingo-general/handler.go HandleGeneral", "lingo-extremote/handler.go HandleExtRemote", "lingo-dispremote/handler.go HandleDispRemote", "lingo-audio/handler.go HandleAudio", "cmd.go MarshalBinary"]}
{"id": "C92", "title": "The same fact is told the same by every lingo", "statement": "An accessory that asks for the state of the player or the number of tracks gets the same answer whichever lingo and request it uses. False: the display remote's play status says stopped, its state info says playing, the extended remote says paused; the number of tracks is 0 in the display remote and 1 in the extended remote.", "quantifier": "all devices and device states, all clocks, all earlier histories, all transactions", "why_tests_cant": "The disagreement is between handlers that tests exercise separately; that it holds at every moment and for every device needs all states.", "anchors": ["lingo-dispremote/handler.go HandleDispRemote", "lingo-extremote/handler.go HandleExtRemote"]}
{"id": "C93", "title": "The server is a small protocol machine", "statement": "What an accessory sees is determined by a machine with four pieces of memory (transaction numbers on or off, extended interface mode or not, the last number the tool used, how often the clock was read) and a table of 79 requests: identifier, size of the content, reaction in bytes. From the packets of a frame and that memory follow, to the byte, the frames sent in answer and the next memory, or that the process crashes; and so for whole sessions from the start. Which requests have a transaction number follows from size and mode as the machine says; everything else sent is ignored, except an unknown command of the general lingo, which is acknowledged with status 5, without a transaction number even when numbers are on.", "quantifier": "all received frames that hold packets, all packets and bytes in them, all reachable server states, all transports, all clocks, both runtimes (binary.Size of nil), all lengths of session", "why_tests_cant": "The machine is a complete description of the reactions; tests compare a handful of request/reply pairs, and cannot show that no other input has an effect, nor that nothing else of the state matters.", "anchors": ["cmd/ipod/main.go processFrames handlePacket", "cmd.go UnmarshalBinary MarshalBinary CommandSerde", "lingo.go Lookup", "lingo-general/handler.go HandleGeneral", "lingo-dispremote/handler.go HandleDispRemote", "lingo-extremote/handler.go HandleExtRemote", "lingo-audio/handler.go HandleAudio Start", "packet.go WritePacket"]}
{"id": "C94", "title": "From HID reports to HID reports", "statement": "A server on a HID device that delivers given reads and accepts all writes answers as the machine of C93: the packets that arrive in the reports (frames put together from reports, errors and unknown reports dropping the frame begun) go into the machine, and the writes are exactly the reports of the machine's frames, in order, cut by the report table; or the process crashes when the machine does. For an accessory that sends proper frames, what old bytes lie in memory plays no part.", "quantifier": "all usable report tables, all input reads, all memory contents, all lengths of session, all clocks, both runtimes", "why_tests_cant": "It joins every layer of the program over unbounded input; a test can run one recorded session.", "anchors": ["cmd/ipod/main.go processFrames", "hid/hid.go ReadFrame WriteFrame", "hid/report_transport.go ReadReport WriteReport", "hid/report_def.go Pick Find"]}
{"id": "C95", "title": "Only the memory counts, and not how packets are grouped", "statement": "Two servers with the same protocol memory (transaction mode, interface mode, last number used, clock readings) do the same for ever on any transport, whatever certificates, identification tokens and settings they have been sent before. An accessory may group its packets into frames, and cut frames into reports, as it likes: the same replies are sent, as long as no packet switches transaction numbers on or off. (It matters when one does: a reply to a packet before the start of identification in the same frame is sent with a transaction number, alone it is sent without.)", "quantifier": "all pairs of reachable states with equal memory, all transports and inputs, all lengths of session; all ways of dividing a sequence of packets into frames and reports, all usable report tables", "why_tests_cant": "It compares two unbounded executions, over all inputs and all ways of dividing them.", "anchors": ["cmd/ipod/main.go processFrames handlePacket", "cmd/ipod/general.go DevGeneral", "packet.go ReadPacket", "hid/hid.go ReadFrame"]}
{"id": "C96", "title": "Replies are bounded", "statement": "A frame of n packets is answered with at most 3 n frames, each of at most 1285 bytes; if no packet carries identification tokens, each has at most 28 bytes. A frame that fits a report of the table is written as exactly one report: report id, link control 0, the frame, zeros; both tables of the library have room for 28 bytes, so such replies take one report each.", "quantifier": "all received frames that hold packets, all reachable states, all transports, all report tables", "why_tests_cant": "A bound over all requests and contents; tests only measure the replies to the requests they send.", "anchors": ["cmd/ipod/main.go processFrames", "lingo-general/handler.go HandleGeneral", "lingo-general/general.go RetFIDTokenValueACKs", "packet.go WritePacket", "hid/hid.go WriteFrame", "hid/report_def.go Pick"]}
{"id": "C97", "title": "An accessory that uses the library reads the server's replies", "statement": "Decoding with the library what the server encoded in answer to a request from the wire gives back the command the server wrote: the same id, the same transaction number (none when numbers are off) and the same contents. For replies of a fixed size this holds whether or not either side has transaction numbers on. For the others it holds if the request carried a number exactly when numbers are on; without it the library accepts the request but the reply is misread (the first two characters of the name are taken for a number). The display-remote track information that holds text (types 1-7) is sent but cannot be decoded, and the extended-remote track information of kinds other than 0, 3 and 4 arrives as an empty structure.", "quantifier": "all requests decoded from packets, all devices whose answers fit their fields, all handler states, both transaction modes, both Go versions", "why_tests_cant": "It relates the encoder and the decoder over every reply to every request with every contents and both modes; a test compares a few commands, usually built by hand rather than written by the handlers.", "anchors": ["cmd.go MarshalBinary UnmarshalBinary", "lingo.go Lookup", "lingo-general/handler.go HandleGeneral", "lingo-extremote/handler.go HandleExtRemote", "lingo-dispremote/handler.go HandleDispRemote", "lingo-dispremote/dispremote.go RetIndexedPlayingTrackInfo", "cmd/ipod/main.go handlePacket"]}
{"id": "C98", "title": "The log a crash leaves behind tells the run up to the crash and which frame caused it", "statement": "If a frame crashes the server, the log written until then holds, for every earlier frame, everything the server logs about it (as in C87), then the entry of the crashing frame, the entries of the packets and commands read from it before the crash, and the entry of the packet whose decoding crashed; nothing is missing and nothing else is there. So the last frame in the log is the one that caused the crash, and the last entry is a packet read without error exactly if decoding that packet crashed; otherwise a packet was cut off. Logging does not change the run.", "quantifier": "all transports that do not crash themselves, all inputs, all states reachable from the initial one, all lengths of runs, both Go versions", "why_tests_cant": "It is about every history before a crash and every point inside a frame at which the crash can happen; a test that crashes the process on one input sees one log.", "anchors": ["cmd/ipod/main.go processFrames logFrame logPacket logCmd", "cmd/ipod/log.go", "packet.go ReadPacket", "cmd.go UnmarshalCmd"]}
{"id": "C99", "title": "Talking to the server over HID is calling its handlers", "statement": "An accessory encodes commands with the library, one in a frame, and writes them as HID reports; the server runs on these reports; the accessory reads the server's reports with the library. The server then handles exactly the commands sent, in order, and the accessory decodes, for each of them in turn, exactly the replies the handlers write when called with it: same id, same number, same contents, nothing missing and nothing else. Exceptions: replies without a wire form are missing (C37), the text about a track cannot be decoded (C97), a reply to tokens of exactly 256 bytes is garbled (C03).", "quantifier": "all sequences of commands of registered types with encodable contents that carry a number exactly when numbers are on, all report tables that are usable and whose reports fit the reader's buffer, all contents of memory behind a frame, all handler states the tool can be in, both Go versions", "why_tests_cant": "It composes every layer in both directions over every sequence of commands: encoding, packets, cutting into reports, reassembly, decoding, handling, and the way back, with the transaction mode carried along on both sides; tests exercise the layers one by one.", "anchors": ["cmd.go MarshalCmd UnmarshalCmd", "packet.go WritePacket ReadPacket", "hid/hid.go WriteFrame ReadFrame", "hid/report_transport.go", "cmd/ipod/main.go processFrames handlePacket"]}
{"id": "C100", "title": "A packet damaged on the way is as if it had not been sent", "statement": "If in some of the packets of a frame one byte is changed on the way - the start byte, a byte of the payload or the check sum - and no start byte is left inside them, the server does exactly what it does on a frame that carries the other packets only: same frames sent, same next state, same crashes; so for whole sessions. Frames that hold the same packets always have the same effect. Exceptions: a changed length (a greater one, in the last packet of a frame with nothing behind it, always crashes the server); a packet with another packet inside, which is read instead when the check sum is wrong; and changes of more than one byte (any reordering of the payload passes).", "quantifier": "all frames, all sets of damaged packets, all positions and values of the changed bytes, all filler, all memory behind the frames, all server states, all implementations of the device, all transports, both Go versions", "why_tests_cant": "Which bytes are hit, in which packets, in which state and what follows later cannot be enumerated; the claim compares two whole runs.", "anchors": ["crc.go Checksum", "packet.go parsePacket ReadPacket", "cmd/ipod/main.go processFrames"]}
{"id": "C101", "title": "A lost report costs its own frame only", "statement": "Whatever reports, read errors and unknown ids came before, a frame whose reports arrive in a row is delivered exactly. If on the way to the server reports of some frames are lost - the last report of a frame with any others of it, or the first with any others, no start byte being left in the rest - and packets are damaged (C100) in frames that arrive, the server sends exactly the reports, and ends in the state, of the session in which the lost frames and damaged packets were not sent. Exceptions: a report lost from the middle leaves a packet that is too short, which crashes the server; and if the end of a frame and the start of the next are lost, the rests are read as one frame, which can be a request nobody made.", "quantifier": "all sequences of reports and errors, all frames, all choices of lost reports and damaged bytes, all usable tables of reports, all spare bytes in memory and states of the reused buffers, both Go versions", "why_tests_cant": "Which reports are lost, of which frames and in which state of reassembly cannot be enumerated; the claim compares two whole sessions.", "anchors": ["hid/hid.go Decoder.ReadFrame", "hid/report_transport.go ReadReport", "packet.go ReadPacket", "cmd/ipod/main.go processFrames"]}
{"id": "C102", "title": "A recorded session can be repeated on another server with the send command", "statement": "Record a session of the server on a device of whole reports (every good read has at least three bytes). When the send command has sent all of the trace, in whatever order its two goroutines ran and whatever the results of its writes were, another such server that is given what was written reads as many frames, ends in the same state and sends the same frames as in the recorded session; and if the session ended in a crash, the other server crashes on the same frame, having sent the same frames. (One read of fewer than three bytes in the session ends the sending.)", "quantifier": "for every device, report table, registry, handler state, recorded session (ended or crashed), sender device and interleaving of the send command's goroutines", "why_tests_cant": "the recorded sessions, the sender's schedules and the errors of its writes are unbounded; a test repeats one trace under one schedule", "anchors": ["cmd/ipod/main.go send command, processFrames", "trace/trace.go Tracer, Reader", "hid/hid.go Decoder.ReadFrame"]}
{"id": "C103", "title": "The viewer with the buffers it really has", "statement": "The viewer makes a new decoder for every frame of the trace. Whatever its buffer's growth, it behaves as the viewer of the other properties does for some bytes behind the frames; and behind a frame whose reports come in a row it finds zeros only, nothing of earlier frames; so along a whole trace in which the messages of each direction are whole frames, mixed in any way. The server keeps one decoder, so the two can differ on the same frames: there is a session that the server lives through on whose trace the viewer crashes, and a session that crashes the server whose trace the viewer shows to its end.", "quantifier": "for every trace, report table, registry and growth policy of the buffer; for every frame, with any reports after it, and for every trace of whole frames", "why_tests_cant": "the bytes behind a frame depend on the buffer's capacity, hence on the runtime's growth policy and on all earlier frames; a test runs with one policy and one history", "anchors": ["cmd/ipod/main.go dumpTrace", "hid/hid.go Decoder.ReadFrame", "packet.go ReadPacket"]}
{"id": "C104", "title": "Reports that arrive more than once", "statement": "When an accessory repeats reports, the server's session is the one with these packets: a frame given up before its last report and sent again from the start counts once; a last report that comes again after its frame (with any of the reports between the first and it, and without a start byte in them) counts for nothing; a frame that comes again whole counts twice. This holds with the server's real buffers, in whatever state. A report between the first and the last that comes twice can make another request of the frame, which the server answers.", "quantifier": "for every report table that both ends can use, sequence of frames and packets, choice of repetitions, runtime, clock, growth policy and buffer state", "why_tests_cant": "the frames, where they are broken off and what is repeated are unbounded; a test repeats one report of one frame", "anchors": ["hid/hid.go Decoder.ReadFrame", "cmd/ipod/main.go processFrames", "packet.go PacketReader.ReadPacket"]}
{"id": "C105", "title": "Sending a request again", "statement": "An accessory may send a request again, any number of times in a row and anywhere in a session. If the frame is one packet other than entering or leaving the extended mode, a certificate section, the end of identification and the question for the player's state, or several such packets that do not switch transaction numbers, then nothing changes but that its answers are written again each time, byte for byte: what is written before and after is the same, the server remembers the same, and it crashes only if it does without the repetition. Any packet at all, sent again, crashes the server only if the first one does, and leaves the modes of numbers and of the user interface as after the first. The five kinds named are answered differently the second time, and a certificate section sent again is kept twice.", "quantifier": "for every session of proper frames before and after, every repeatable frame, every number of repetitions, every report table that is usable, every content of memory behind the frames and every state and growth of the real buffers", "why_tests_cant": "it compares two sessions of any length that differ in one place; tests run one session at a time", "anchors": ["cmd/ipod/main.go processFrames", "lingo-general/handler.go HandleGeneral", "lingo-dispremote/handler.go HandleDispRemote", "lingo-extremote/handler.go HandleExtRemote", "cmd.go UnmarshalCmd"]}
{"id": "C106", "title": "Taking packets apart and putting them together again", "statement": "A program that decodes a packet with the library and encodes the command again, in the transaction mode it has then, gets a packet that decodes to the same command, with the same error if there was one, and a second pass changes nothing more. Packets in the form in which the library writes them, and packets of unknown commands, come out unchanged, byte for byte. Exactly the commands whose payload has an encoding pass. A server behind such a program does not notice it: it does not crash, remembers the same and writes the same reports, in a session of any length. The conditions are that no command carries a number while numbers are off, and that no identify token claims more lingoes than fit; without them it is false, and what an accessory sends to authenticate itself cannot be passed on at all.", "quantifier": "for every packet, every transaction mode and every session of frames of such packets, every way of cutting the frames into reports, every usable report table and every content of memory behind the frames", "why_tests_cant": "it starts from arbitrary bytes, not from commands a test builds, and compares sessions of any length", "anchors": ["cmd.go UnmarshalCmd", "cmd.go MarshalCmd", "lingo-general/general.go SetFIDTokenValues", "lingo-simpleremote/simpleremote.go ButtonStates", "cmd/ipod/main.go processFrames"]}
{"id": "C107", "title": "How the send mode comes to rest", "statement": "The send mode never ends by itself. Nothing can happen in it any more exactly when the receiving goroutine has crashed the process, or all of the trace was sent and the receiver has ended, or all was sent and the device gives no further read. The receiver ends exactly at the first device read that reports io.EOF, whatever data that read gave, and reads nothing after it; any other read error, and any data, lets it go on. If the device gives only finitely many reads, every order of the two goroutines' steps comes to such a rest, and at rest, without a crash, everything the file says was written to the device.", "quantifier": "for every trace file, device that keeps the contract of io.Writer, every content of memory behind the frames, every order of the goroutines' steps and every state reached", "why_tests_cant": "it speaks of every schedule of two goroutines and of what can no longer happen", "anchors": ["cmd/ipod/main.go send command", "cmd/ipod/main.go processFrames", "hid/hid.go Decoder.ReadFrame", "hid/report_transport.go ReadReport"]}
{"id": "C108", "title": "What of a trace file matters", "statement": "A trace file is text that users cut, join, filter and comment. The replay of any file does exactly what the server does on a device that gives the incoming messages of the file's lines and fails once for each line that is no message: blank lines, outgoing messages, letter case, spacing, carriage returns and a missing last newline do not matter. The send command writes the incoming messages up to the first line that is no message or has fewer than three bytes. The viewer refuses a whole file for one such line. Files joined give their messages one after the other. Comment lines between frames do not change what a replay does; within a frame they cost the frame.", "quantifier": "for every file content (lines of at most 65535 bytes), every handler device, report table, content of memory behind frames and number of steps", "why_tests_cant": "it ranges over every text a user may write, and over sessions of any length", "anchors": ["trace/trace.go Reader.ReadMsg", "trace/trace.go traceDirReader.Read", "cmd/ipod/main.go replay command", "cmd/ipod/main.go send command", "cmd/ipod/main.go dumpTrace"]}
{"id": "C109", "title": "The order of requests", "statement": "All packets but those of ten commands (identification in its three versions, entering, leaving and asking for the extended mode, certificate sections, end of identification, state of the player) are free of their place in a session. A frame of free packets that is sent later, with no identification in between, is answered by the same reports in its new place, and all other reports and what the tool remembers are the same. Of frames of free packets in a row any selection may be sent, in any order and with repetitions: each is answered as before, and nothing else changes.", "quantifier": "for every session of frames before, between and after (any number of reports and packets), every selection and order of free frames, every report table, content of memory behind frames and state of the buffers", "why_tests_cant": "it compares sessions of any length in every order of their requests; tests run one order", "anchors": ["cmd/ipod/main.go processFrames", "lingo-general/handler.go HandleGeneral", "lingo-dispremote/handler.go HandleDispRemote", "lingo-extremote/handler.go HandleExtRemote", "cmd.go UnmarshalCmd"]}
{"id": "C110", "title": "Identification and authentication over the wire", "statement": "Whatever frames an accessory sends over HID, the device is given exactly the certificates that the sections among the packets make up: section 0 starts anew, each other one is appended, the last one hands over; how the packets are divided into frames and reports does not matter. An accessory that starts identification, ends it and sends its certificate in sections 0 to n (at most 256), with any frames of other packets in between (tokens, signatures, requests), gets for each step exactly its answer: acknowledgement with its transaction number; status and the request for authentication; an acknowledgement per section; after the last one the start of the audio lingo, the verdict and the request for the signature. At the end the device was given the whole certificate once, and the tool has used two transaction numbers of its own.", "quantifier": "for every session of frames of any number of reports and packets, every certificate in any division into sections, all transaction numbers, every interleaving with other frames, every report table, content of memory behind frames and state of the buffers", "why_tests_cant": "it ranges over sessions of any length, every division of a certificate and every interleaving; a test plays one handshake", "anchors": ["cmd/ipod/main.go processFrames", "cmd/ipod/main.go handlePacket", "lingo-general/handler.go HandleGeneral", "lingo-general/general.go RetDevAuthenticationInfo", "cmd.go UnmarshalCmd", "cmd.go TrxReset", "hid/hid.go"]}
{"id": "C111", "title": "A new start", "statement": "An accessory that is connected to a tool that is already running, after any input (other accessories, garbage, unknown reports, read errors, a frame broken off), and that starts identification and then leaves the extended mode, finds the tool as if it had just been started: whatever frames it sends then, the reports written and the memory of the protocol are those of a new tool, up to the time of day; only the answer to leaving the extended mode says whether the tool was in it. The same holds for an accessory that identifies itself with its lingoes and uses no transaction numbers, except that the tool's count of its own questions goes on; the count is seen only if such an accessory starts identification in the middle of a frame (finding).", "quantifier": "for every input before on which the tool does not crash, every session after the new start, all transaction numbers, lingoes and device ids, every clock, report table, content of memory behind frames and state of the buffers", "why_tests_cant": "it compares two runs, one of which follows any history whatsoever; a test knows a few histories", "anchors": ["cmd/ipod/main.go processFrames", "cmd/ipod/main.go handlePacket", "lingo-general/handler.go HandleGeneral", "cmd.go UnmarshalCmd", "cmd.go TrxReset", "hid/hid.go", "hid/hid.go"]}
{"id": "C112", "title": "Joined trace files", "statement": "Trace files can be put one behind the other. If the first ends in a newline, breaks no frame off, and leaves transaction numbers off (or the second begins with an identification), the viewer prints of the joined file what it prints of the first and then what it prints of the second, and crashes on it or refuses it just as the second; a file refused stays refused with the same error, whatever is put behind it. The send command sends the messages of the first and then those of the second, or only those of the first if one of its messages cannot be sent. The replay of the joined file, if the second file begins with a new start, goes on after anything in the first as the replay of the second alone, up to the time of day. Without the newline the first message of the second file is lost without notice, and if the first file leaves numbers on the second may be shown otherwise (findings).", "quantifier": "for all pairs of files with lines of at most 65535 bytes, whatever messages and comments they hold, every report table, clock and content of memory behind frames", "why_tests_cant": "it relates three runs of each command, on two files and on the joined one, for all pairs of files", "anchors": ["cmd/ipod/main.go dumpTrace", "cmd/ipod/main.go processFrames", "trace/trace.go Reader", "trace/trace.go Queue", "cmd.go UnmarshalCmd", "cmd.go TrxReset"]}
{"id": "C113", "title": "Disturbances are contained", "statement": "Whatever comes to the server between two frames - reports of a frame in the wrong order, in part, twice or altered, read errors, reports of unknown id - if it does not crash on it and no packet to be found in it is an identification or one of the few that change the memory, then what is answered before and after it, and the memory left, are as if it had not come; what it is answered is all that is added. Noise, that is read errors, reports of unknown id and reports without a byte that can start a packet, adds nothing at all, whatever the buffers hold. The later frame must have a report that starts a frame. The condition is about the bytes of all reports in a row and not only the packets sent: a frame whose first report is lost can turn transaction numbers on although the frame as sent changes nothing (finding).", "quantifier": "for all sequences of frames before and after, all disturbances, every report table, clock and content of memory behind frames; for noise, also every memory state and allocation policy", "why_tests_cant": "a test disturbs a few places in a few ways; this is about every disturbance at every place", "anchors": ["hid/hid.go Decoder.ReadFrame", "hid/report_transport.go ReadReport", "packet.go PacketReader.ReadPacket", "cmd/ipod/main.go processFrames"]}
{"id": "C114", "title": "Any device behind the server", "statement": "A program can put its own device behind the server. The device is seen through its methods only: two devices whose methods give the same answers lead to the same run on any transport, with the same frames and the same calls in the same order, however they work inside. The answer to a question (name, serial number, versions, options, preferences, event masks, payload size) is told in the reply to that question and has no other effect: two devices that answer some of these differently are called alike and send frame by frame the same, or both the reply that holds such an answer. What a device returns for an identification token has no effect at all: a device that refuses every token cannot be told from one that takes them (finding).", "quantifier": "for all pairs of devices with any state, all relations between their states that their methods respect, every set of questions answered differently, every transport (for equal answers) or every input, report table and content of memory behind frames, and every clock", "why_tests_cant": "it compares two runs for every pair of implementations of the device interface; a test has one or two", "anchors": ["lingo-general/handler.go DeviceGeneral", "lingo-general/handler.go HandleGeneral", "cmd/ipod/main.go processFrames", "cmd/ipod/main.go handlePacket"]}
{"id": "C115", "title": "Servers that share a process", "statement": "A program can run several servers in one process, each with its own transport and device. Whatever the others do between the commands of one server, that server reads the same input, calls the same methods of its device and sends as many frames, and each frame is the same as if it were alone, but for three things: the number of a question of the server's own, the certificate handed to the device, and the time told. These do leak (findings): the sections of a certificate are collected in one place for the whole process, so a section from another accessory ends up in the certificate; and any accessory's start of identification sets the numbers of questions back, so two questions to one accessory can bear the same number.", "quantifier": "for all inputs of the server, all changes of the shared variables by others before each command, every device that does nothing visible with the certificate, every report table, content of memory behind frames and clock; the findings for every device and all contents of the sections", "why_tests_cant": "the interleavings of two servers are unbounded; a test runs one server or a few interleavings", "anchors": ["lingo-general/handler.go accCertBuf", "cmd.go trxCounter", "cmd.go TrxReset", "cmd.go TrxNext", "lingo-general/handler.go HandleGeneral", "cmd/ipod/main.go processFrames"]}
{"id": "C116", "title": "What the server holds on to", "statement": "A server may run for months. What it keeps of its input is exactly this: the sections of a certificate since the last section 0 (whether they were handed to the device or not), and the identification tokens since the last start of identification; everything else it keeps is a few numbers. Both together never take more than was sent (a byte for each byte of certificate, three for each token), and a frame being put together never more than the reports it came in. The buffer frames are put together in never takes more than a fixed number of times the longest frame, however long the session; what it took is not given back. There is no other bound (findings): an accessory that keeps sending the same section, or more tokens, gets each acknowledged and all of them are held; and a frame that is never ended grows with each report.", "quantifier": "for all inputs from the device, report tables, contents of memory behind frames, growth policies of the buffers (for proper accessories) and clocks; the findings for every number of packets or reports", "why_tests_cant": "it bounds the state after any number of packets, and the growth shows only in the limit", "anchors": ["lingo-general/handler.go accCertBuf", "lingo-general/handler.go HandleGeneral", "cmd/ipod/general.go DevGeneral", "hid/hid.go Decoder.ReadFrame", "cmd/ipod/main.go processFrames"]}
{"id": "C117", "title": "Built with another version of Go", "statement": "The tool behaves the same whichever Go version it is built with, except for one crash: binary.Size of a nil value panics in older versions and not in newer ones. For any input, device, command line and file system, the older build either crashes or does exactly what the newer one does: same replies, same files, same log, same exit code; what an older build can come to while sending a newer one can. Exactly: decoding differs on the packets in which the reader of identification tokens comes upon a token of which the program knows nothing, there the older build crashes; and a session over HID crashes with the older build if such a token is among what arrives, and is the same otherwise. (Expected was no difference at all, which is refuted.)", "quantifier": "for all packets, modes, commands, registries, devices, transports, inputs, traces, command lines and file systems; report tables, memory behind frames and clocks", "why_tests_cant": "it compares two builds on every input; tests run one build on some", "anchors": ["lingo-general/general.go FIDTokenValue.UnmarshalBinary", "lingo-general/general.go FIDTokenValue.MarshalBinary", "lingo-general/general.go FIDTokenValueACK.MarshalBinary", "cmd.go UnmarshalCmd", "cmd.go MarshalCmd", "cmd/ipod/main.go processFrames", "cmd/ipod/main.go dumpTrace"]}
{"id": "C118", "title": "Any transport under the server", "statement": "The server sees its transport only through the frames it delivers. Two transports, however they work inside, that deliver frames holding the same packets and end together lead to the same run with any device: the same calls of its methods, the same state at the end, the same frames handed over for sending, whatever their writes return. Over HID: wherever the same packets arrive, in the reports of any two usable tables, cut up anyhow, with disturbances, and with anything left in the memory behind the frames, any device ends in the same state and the same frames are sent, each cut by the table in use. (Expected was that the server notices when its replies cannot be sent; it does not, which refutes it: whatever the writes return, the run is the same.)", "quantifier": "for all transports and relations between their states, devices, starting states, results of writes, report tables, inputs, memory behind frames, clocks and Go versions", "why_tests_cant": "it ranges over every transport and compares two runs on every input; tests run one transport on some inputs", "anchors": ["cmd/ipod/main.go processFrames", "transport.go FrameReadWriter", "packet.go PacketReader.ReadPacket", "hid/hid.go ReadFrame", "hid/hid.go WriteFrame", "hid/report_def.go"]}
{"id": "C119", "title": "Registering commands", "statement": "The registered commands reach the server through the two lookups only, so registries they cannot tell apart give the same run with any device, transport and input; the order in which the lingo packages are initialised is one such difference. A packet's decoding depends on the registrations of its own lingo only: without that lingo's package its packets are unknown commands, kept as they are. Registering commands under new ids and types changes neither how other packets are decoded nor which id other payloads get. Commands registered for a lingo without a handler change no run of the server, unless decoding one crashes. (Expected was that registering the same commands again is harmless, and that a registered command the handler does not know is refused as before. Neither holds: registered twice, every command of variable size becomes unknown; registered for the general lingo, a command that was refused goes unanswered.)", "quantifier": "for all registries, orders of registration, packets, payloads, devices, transports, starting states, clocks and Go versions", "why_tests_cant": "it ranges over every registry and order of registration and compares two runs on every input; tests run with the one registry of the build", "anchors": ["lingo.go RegisterLingos", "lingo.go storeMapping", "lingo.go Lookup", "lingo.go LookupID", "cmd.go UnmarshalCmd", "cmd/ipod/main.go processFrames", "lingo-general/general.go init", "lingo-extremote/extremote.go init"]}
{"id": "C120", "title": "The clock", "statement": "A run of the server depends on the readings of the clock it takes and on no other moment: with any device and transport, clocks that agree on those readings give the same run. Whatever two clocks show, any device gets the same calls and ends in the same state, and over HID the frames sent are the same but for those that tell the date. Each reading is told in exactly one frame, in the order they are taken, with year, month, day, hour and minute from that one reading. A session in which the date is not asked for takes no reading and is the same under every clock.", "quantifier": "for all clocks, devices, transports, starting states, report tables, inputs, memory behind frames and Go versions", "why_tests_cant": "it compares two runs on every input under every pair of clocks; a test runs under the one clock of its machine", "anchors": ["lingo-dispremote/handler.go HandleDispRemote", "cmd/ipod/main.go processFrames", "cmd/ipod/main.go handlePacket", "lingo-dispremote/dispremote.go RetiPodStateInfo"]}
{"id": "C121", "title": "An accessory that reacts", "statement": "An accessory may decide what it sends next by what it has been sent. Its session is nevertheless one of the sessions the other properties are about: the server ends in the same state, writes the same reports, or crashes, as on an accessory that sends the same reads whatever it gets. And the server never keeps an accessory waiting: whenever it reads, everything it has to say to what was sent before has been written, namely what it writes if the accessory hangs up at that point. So at each of these points the accessory has got exactly the answers of the protocol machine (C93) to the packets that have arrived by then, and an accessory that waits for its answer before it goes on cannot be stuck.", "quantifier": "for all accessories (any state, any reaction to any report), devices, registries, report tables, memory behind frames, clocks and Go versions, in every session that comes to an end or a crash", "why_tests_cant": "it ranges over every strategy of an accessory; a test plays one script", "anchors": ["cmd/ipod/main.go processFrames", "hid/hid.go ReadFrame", "hid/hid.go WriteFrame", "hid/report_transport.go ReadReport", "hid/report_transport.go WriteReport"]}
{"id": "C122", "title": "Replies that are not taken", "statement": "The device file may refuse any report the server writes, with an error or by taking fewer bytes than it was given, and may decide so by anything that went before. This does not disturb the server: it ends in the same state, or crashes, as on a device file that gives the same reads and takes everything. Of each reply it tries the reports in order up to the first that is refused, and it begins every reply whatever became of the ones before; whenever it reads, this has been done for everything it has to say to what was read before. An accessory that reads what was taken with the library gets exactly the replies that were taken whole, in order: a refused report costs its own reply and no other. That reply is lost, though: it is not sent again.", "quantifier": "for all device files (any state, any decision on any report) that do not claim to take more bytes than they were given, all devices behind the server, report tables, memory behind frames, clocks and Go versions, in every session that comes to an end or a crash", "why_tests_cant": "it ranges over every pattern of refusals in every session; a test refuses a few writes", "anchors": ["cmd/ipod/main.go processFrames", "hid/hid.go WriteFrame", "hid/hid.go ReadFrame", "hid/report_transport.go WriteReport"]}
{"id": "C123", "title": "What a trace tells of refused reports", "statement": "With -w on a device file that takes a report whole or answers with an error, the session is the one without the tracer, and the trace file holds exactly what got across, in order: the reads that gave data, and the reports that were taken; of a refused report there is nothing. If in both directions the last message ends a frame, the viewer shows exactly the replies that were taken whole, in order. It need not show them in their place, though: the beginning of a reply that was broken off is joined with the next reply, which is then shown in front of requests it follows, and with no whole reply after it the viewer stops there and leaves out the requests that came later.", "quantifier": "for all device files (any state, any decision on any report) that take a write whole or return an error, all devices behind the server, report tables, memory behind frames, clocks and Go versions, in every session that comes to an end or a crash", "why_tests_cant": "it ranges over every pattern of refusals in every recorded session; a test records a few", "anchors": ["trace/trace.go tracer.Write", "trace/trace.go tracer.Read", "cmd/ipod/main.go serve", "cmd/ipod/main.go dumpTrace", "cmd/ipod/main.go processFrames"]}
{"id": "C124", "title": "A recording that was cut short", "statement": "If the recording of a session stops at any byte of the trace file, because the machine or the program died or the disk was full, the rest is still good for something definite. The replay of the file does exactly what the server does on a device that gives the reads of the session up to some moment - those whose lines are complete - and at most one more: a failing read, or the beginning of the read whose line was cut. The send command writes these. Cut behind a line, the replay ends in the state the server had at that moment, with everything it had answered. A line left over that is no message makes the viewer refuse the whole file, and the beginning of a request can crash the replay, although the session did not crash.", "quantifier": "for all sessions of the server with -w that came to an end, on all device files that take a write whole or return an error, and all cut points; and for all lists of messages that fit the trace reader; all devices behind the server, report tables, memory behind frames, clocks and Go versions", "why_tests_cant": "it ranges over every cut point of every session's file", "anchors": ["trace/trace.go tracer.Write", "trace/trace.go tracer.Read", "trace/trace.go Reader.ReadMsg", "trace/trace.go traceDirReader.Read", "cmd/ipod/main.go serve", "cmd/ipod/main.go replay command", "cmd/ipod/main.go send command", "cmd/ipod/main.go dumpTrace"]}
{"id": "C125", "title": "Recording does not disturb the session", "statement": "Whatever becomes of the trace file while the server runs with -w - its writes may succeed, fail, or be carried out in part - the session is the one without -w: the server ends in the same state having replied the same and called the device the same, and the device file has been read and written the same, or both crash. So nothing tells the user that a recording failed. On a disk with room for a given number of bytes the file holds exactly that many first bytes of what it would hold otherwise, and its replay does what the server does on a device that gives the reads of the session up to some moment and at most one more.", "quantifier": "for all trace files (any state, any answer to any write), all capacities of a disk, all device files within the io contract, all devices behind the server, report tables, memory behind frames, clocks and Go versions, and all sessions, finished, crashed or still going", "why_tests_cant": "it ranges over every way a file can fail in every session; a test fails a few writes", "anchors": ["trace/trace.go tracer.Write", "trace/trace.go tracer.Read", "trace/trace.go Writer.WriteMsg", "cmd/ipod/main.go serve", "cmd/ipod/main.go processFrames"]}
{"id": "C126", "title": "The send mode with a recording, step by step", "statement": "When send runs with -w, its two goroutines share the tracer, and anything may come between a transfer and the line that tells of it. However they are interleaved, and whatever becomes of the trace file: the device is offered exactly what the trace to send says, in order, all of it once the loop has ended; the receiver is given what the device gave, in order; and the sending can always be run to its end. If the trace file takes its writes, it consists at every moment of whole lines that can be read back: of each direction, the transfers without an error and with data, in order, each once, but for at most one that is just being recorded. Replaying the recording does what the receiver would do if the device ended there; and if the receiver has crashed the process, the replay crashes too, the read that did it being in the recording. Findings: an answer can stand before the request it answers; and sending the recording offers the device its own answers, not the requests.", "quantifier": "for all trace contents, devices behind the tracer, trace files, report tables, clocks, Go versions and memory behind frames, and all interleavings of the steps of the two goroutines, finished or stopped at any moment", "why_tests_cant": "it ranges over every interleaving of two goroutines at the level of single transfers and lines; a test sees one schedule", "anchors": ["cmd/ipod/main.go send", "trace/trace.go tracer.Write", "trace/trace.go tracer.Read", "trace/trace.go Writer.WriteMsg", "hid/report_transport.go rawReportWriter.WriteReport"]}
{"id": "C127", "title": "With the program's own buffers, a replay repeats the session or its crash", "statement": "Record a session of the server with -w while its report buffer and frame buffer are used as the program does: reused from frame to frame, grown as the Go runtime chooses, with bytes of earlier frames left behind the current one. When the session ends or crashes, the recording holds exactly what got across. If every read gave data and no error, except for a bare end of file as the last one, then replaying that recording with the same buffers leaves the server in the same state with the same replies, or crashes exactly if the session did; this includes packets that are completed by bytes left over from earlier frames. What the device makes of the writes has no influence on the server's state, replies, buffers or crash. A read that makes the program crash need not do so if it is replayed without the reads before it. Nor need a replay crash if it is built with a version of Go whose buffers grow otherwise.", "quantifier": "all devices whose reads fit the buffer and whose writes are whole or fail, all memory states and growth policies, report tables with a usable report, handlers' devices and states, clocks and session lengths", "why_tests_cant": "what a cut packet does depends on all frames before it through the bytes left in the buffer, and on how the buffer has grown; tests try a few sessions", "anchors": ["cmd/ipod/main.go serve", "cmd/ipod/main.go replay", "cmd/ipod/main.go processFrames", "trace/trace.go tracer.Read", "trace/trace.go tracer.Write", "hid/hid.go Decoder.ReadFrame", "hid/report_transport.go rawReportReader.ReadReport", "packet.go PacketReader.ReadPacket"]}
