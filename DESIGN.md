# Formal model of oandrew/ipod in Rocq (Coq 8.16.1)

`/repo` (Go) is read as text and transcribed, function by function, into total Gallina functions.
Every definition cites the file and lines it models; every simplification is named in that comment.
The properties of `properties.jsonl` are theorems about these functions, for all inputs, states and
histories. Where the expected property is false of the code, the theorem is a `..._refuted` with a
concrete witness, next to the strongest true statement that was found.

## How Go is modelled

* **bytes** are Coq's 256-element `Byte.byte`, so `list byte` is exactly the set of `[]byte` contents;
* **slices**: where capacity is observable (`PacketReader`) a slice is its visible bytes plus the
  spare bytes of the backing array (`slice`); elsewhere it is its contents. `Mem.v` has in addition an
  explicit heap of arrays and references into it, for the buffers that are reused
  (HID decoder, raw report reader, certificate buffer), and C73-C76 relate the two;
* **panics** are the outcome `Panic` (there is no `recover` anywhere in `/repo`, so a panic ends the process);
* **errors** are values returned next to the other results, as in Go;
* **fixed-width integers** are `N`/`Z` with the wrap written at each conversion;
* **encoding/binary** (`Size`, `Write`, `Read`) is a generic function over a struct layout (`GoTypes.v`);
  each Go struct is a row of a layout table (`Types.v`, generated from the source by `tools/gen_types.py`);
* **loops** are structural recursion or recursion on fuel, with the fuel proved sufficient, or with
  `None` as "did not finish" and the theorems quantified over the fuel;
* **goroutines** are interleavings of the atomic steps of the code;
* **devices** (the `DeviceGeneral` interface) are an arbitrary record of methods over an arbitrary
  state type; the shipped `DevGeneral` is one instance;
* **environment**: device reads and writes are arbitrary functions or lists of results, the wall clock is
  an arbitrary function, the growth of a `bytes.Buffer` an arbitrary policy, and the behaviour of
  `binary.Size(nil)`, which depends on the Go version, a parameter (`rt`).

## Files (`rocq/theories`)

Model files contain definitions only. Specifications (`Spec*.v`) are small, written from the English
property and the protocol, and do not use the model's helpers. `*Facts.v`, `*Thms.v`, `*Props.v` hold
lemmas. `Prop*.v` hold the property theorems `Cxx_...`, each with `Print Assumptions` beneath it and an
`Example Cxx_case` showing a concrete case that meets its hypotheses.

| area of `/repo` | model | specification | lemmas | theorems |
|---|---|---|---|---|
| `crc.go`, `packet.go` (`ClientPacket`: programs that call them) | `Base` `Packet` `ClientPacket` | `SpecPacket` | `BaseFacts` `PacketFacts` `PacketThms` | `PropPacket` (C01-C11) |
| `lingo.go`, `cmd.go`, the lingo tables | `GoTypes` `Types` `Lingo` `Command` | `SpecCommand` | `GoTypesFacts` `LingoFacts` `CommandFacts` `CommandThms` `CommandProps` | `PropCommand` (C12-C27) |
| `MarshalBinary`/`UnmarshalBinary` of all lingos, `util.go` | `Payload` `Util` | `SpecPayload` | `PayloadFacts` `WireFacts` `TypedThms` `ReadFacts` `ReadThms` `PayloadThms` | `PropPayload` (C56-C63) `PropRead` (C77) |
| `lingo-*/handler.go`, `cmd/ipod/general.go`, `handlePacket` | `Handlers` | `SpecHandlers` | `HandlersFacts` `HandlersThms` `ReplyThms` | `PropHandlers` (C28-C37, C69-C71) |
| `hid/` | `Hid` | `SpecHid` | `HidFacts` `HidThms` `HidPacketThms` | `PropHid` (C38-C44) |
| `trace/` | `Trace` | `SpecTrace` | `TraceFacts` `TraceThms` `TraceSessions` | `PropTrace` (C45-C52, C54, C55) |
| `cmd/ipod/main.go` trace viewer | `Trace` | `SpecView` | `ViewThms` | `PropView` (C53) |
| `cmd/ipod/main.go` server loop, replay | `Server` | `SpecServer` | `ServerFacts` `ServerThms` `SessionThms` `ServerProps` | `PropServer` (C64-C68, C72) |
| `cmd/ipod/main.go` send mode | `Send` | `SpecSend` | `SendThms`, `SendEndThms` | `PropSend` (C78), `PropSendEnd` (C107) |
| send mode with -w, step by step | `SendTrace` `Send` `Trace` | `SpecSendTrace` | `SendTraceThms` | `PropSendTrace` (C126) |
| whole sessions: crash, replay, view | `Server`, `Trace` | `SpecSession` | `CrashThms`, `RecordThms` | `PropSession` (C79-C80) |
| `*_string.go`, mask and transaction texts, `cmd/ipod/formatter.go` | `Text` | `SpecText` | `TextFacts` `TextThms` | `PropText` (C81-C84) |
| `cmd/ipod/log.go`, the log calls of `cmd/ipod/main.go`, `general.go` and `cmd.go` | `Log` | `SpecLog` `SpecReadable` | `LogThms` `AgreeThms` `ReadableThms` `ViewSafe` | `PropLog` (C85-C88) |
| the server's log up to a crash | `LogKept` | `SpecKept` | `KeptThms` | `PropKept` (C98) |
| `main` of `cmd/ipod/main.go`: the commands | `Main` | `SpecMain` | `ToolThms` `MainThms` | `PropMain` (C89-C90) |
| the answers about the player: bytes on the wire (handlers of the four lingos with marshalling) | `Handlers` `Command` | `SpecAnswers` | `AnswerThms` | `PropAnswers` (C91-C92) |
| the whole server: packets, frames, HID reports | all of the above | `SpecProtocol` `SpecWire` | `ProtocolFacts` `ProtocolTokens` `ProtocolThms` `ProtocolProps` `ProtocolMore` | `PropProtocol` (C93-C94) `PropMachine` (C94-C96) |
| reading the replies with the library | all of the above | `SpecRead` | `ReadReplies` | `PropAccessory` (C97) |
| a dialogue of an accessory that uses the library with the server | all of the above | `SpecDialogue` | `DialogueThms` | `PropDialogue` (C99) |
| packets damaged on the way | `Packet` `Server` | `SpecDamage` | `DamageThms` | `PropDamage` (C100) |
| HID reports lost on the way | `Hid` `Packet` `Server` `Mem` | `SpecLoss` | `LossThms` | `PropLoss` (C101) |
| trace files written by hand | `Trace` `Server` `Send` | `SpecEdit` | `EditThms` | `PropEdit` (C108) |
| a recorded session repeated with send | `Trace` `Send` `Server` `Hid` | `SpecRepeat` | `RepeatThms` | `PropRepeat` (C102) |
| the viewer's buffers | `MemView` `Mem` | `SpecLoss` `SpecMemView` | `MemViewThms` `MemViewMore` | `PropMemView` (C103) |
| requests sent again | `Server` `Mem` | `SpecRetry` `SpecProtocol` | `RetryThms` | `PropRetry` (C105) |
| order of requests | `Server` `Mem` | `SpecOrder` `SpecProtocol` | `OrderThms` | `PropOrder` (C109) |
| identification over the wire | `Server` `Mem` `Handlers` | `SpecIdentify` `SpecProtocol` | `IdentifyThms` | `PropIdentify` (C110) |
| a new start | `Server` `Mem` `Hid` | `SpecRenew` `SpecProtocol` | `RenewThms` | `PropRenew` (C111) |
| joined trace files | `Trace` `Server` `Send` | `SpecJoin` `SpecView` `SpecEdit` | `JoinThms` | `PropJoin` (C112) |
| disturbances on the wire | `Hid` `Packet` `Server` | `SpecDisturb` `SpecWire` | `DisturbThms` | `PropDisturb` (C113) |
| other devices behind the server | `Handlers` `Server` | `SpecPlug` `SpecWire` | `PlugThms` | `PropPlug` (C114) |
| several servers in one process | `Shared` | `SpecShared` `SpecPlug` | `SharedThms` | `PropShared` (C115) |
| what the server holds on to | `Server` `Handlers` `Hid` | `SpecHeld` `SpecIdentify` `SpecHeldMem` | `HeldThms` `HeldMemThms` | `PropHeld` `PropCapacity` (C116) |
| builds with different Go versions | `Payload` `Command` `Server` `Log` `Main` `Send` | `SpecVersions` | `VersionThms` | `PropVersions` (C117) |
| transports compared | `Server` `Hid` `Packet` `Command` | `SpecTransport` | `TransportThms` | `PropTransport` (C118) |
| registering commands | `Lingo` `Command` `Server` | `SpecRegistry` | `RegistryThms` | `PropRegistry` (C119) |
| the clock | `Handlers` `Server` `Hid` | `SpecClock` | `ClockThms` | `PropClock` (C120) |
| accessories that react | `Server` `Hid` | `SpecReact` | `ReactThms` | `PropReact` (C121) |
| device files that refuse writes | `Server` `Hid` | `SpecRefuse` | `RefuseThms` | `PropRefuse` (C122) |
| traces of device files that refuse writes | `Trace` `Server` `Hid` | `SpecRefuseTrace` | `RefuseTraceThms` | `PropRefuseTrace` (C123) |
| recordings cut short | `Trace` `Server` `Hid` | `SpecCut` `SpecEdit` `SpecRefuse` | `CutThms` | `PropCut` (C124) |
| replays with the real buffers | `Mem` `Trace` `Server` `Hid` | `SpecRealReplay` `SpecRefuse` `SpecRefuseTrace` | `RealReplayThms` | `PropRealReplay`, `PropGrowth` (C127), `PropEditReal` (C108, C124) |
| recordings of crashes | `Trace` `Server` `Hid` | `SpecRefuse` `SpecRefuseTrace` `SpecCut` | `RefuseThms`, `CutThms` | `PropCrash` (C79) |
| trace files that cannot be written | `Trace` `Server` `Hid` | `SpecRecord` `SpecTransport` | `RecordAnyThms` | `PropRecording` (C125) |
| packets decoded and encoded again | `Command` `Payload` `Server` | `SpecRelay` | `RelayThms` | `PropRelay` (C106) |
| repeated reports | `Hid` `Server` `Mem` | `SpecTwice` `SpecLoss` | `LossThms` | `PropTwice` (C104) |
| the reused buffers of `hid/`, `packet.go`, `cmd.go`, `lingo-general` | `Mem` | `SpecMem` | `MemFacts` `MemThms` `MemServer` | `PropMem` (C73-C76) |

## Trusted base

* Coq 8.16.1's kernel (`coqc`, and `coqchk` in `vcheck`). Some proofs by computation use the kernel's
  `vm_compute`.
* **Axioms: none.** `Print Assumptions` says "Closed under the global context" beneath every theorem of
  every `Prop*.v`; the build output shows it. `coqchk`, which lists what the loaded standard library
  declares whether used or not, reports the seven entries `Coq.ssr.ssrunder.Under_rel.*` (a module type of
  the standard library's ssreflect, loaded by `ZifyBool`'s dependencies); no theorem depends on them. Nothing outside Coq's standard library is used.
* That the model says what the Go code does. It was written by reading `/repo`; no code was run. The
  Go semantics relied on: slice expressions bounded by capacity, integer conversions, `bytes.Buffer`
  (`Reset` keeps the array, writing reuses it while it fits), `bufio.Scanner`
  with its 64 KiB limit, `encoding/binary` for structs of fixed-width fields, `encoding/hex`, `fmt` verbs
  `%X`/`% 02X` on byte slices, `container/list`, `sync/atomic`, `sort.Slice`.
* That the small specifications say what the English says.

## Modelled and not modelled

Modelled: every function of `packet.go`, `crc.go`, `cmd.go`, `lingo.go`, `util.go`, `hid/*.go`,
`trace/*.go`, the struct types, tables, codecs and handlers of all lingo packages, `cmd/ipod/general.go`, `formatter.go`, the texts generated by stringer, and of
`cmd/ipod/main.go`: `processFrames`, `handlePacket`, `dumpTrace`, and the five commands with the opening of their files, from the parsed command line on.

Not modelled, with the reason:

* the dumps of go-spew (added to log entries at debug level; of the report on tokens they are a parameter), and
  `cmd.go:180`, which goes to the logger of Go's library: not read by any other code;
* command-line parsing and help texts (urfave/cli), char devices as trace files, links between paths: OS and third-party code;
* PKCS#7 parsing in `DevGeneral.AccAuthCert`: third-party, the result is only logged. A panic in it would
  be a crash that C67 does not see;
* wall-clock sleeps, memory limits, the scheduler's fairness;
* OS errors other than as arbitrary results of reads and writes.

## Findings (behaviour a user would not expect, each a theorem)

* C03: a 256-byte payload is written with a length byte 0 and no length: the packet is unreadable.
* C09, C20, C67: a truncated packet, an empty RequestApplicationLaunch or an empty EA-protocol token crash the process; one HID report is enough.
* C75: whether a truncated packet crashes depends on what earlier frames left in the buffer.
* C10: the "short packet" check is dead code.
* C14, C16: ACKDataDropped cannot be told from ACKPending and does not survive the wire.
* C31: SetUIMode is acknowledged and does nothing.
* C37, C61, C71: eight kinds of replies cannot be encoded, or lose their text.
* C40: a report definition of length 1 hangs the writer, one of length 0 crashes it.
* C41: the default table does not give the smallest report.
* C43: a decoder on a SingleReport that does not end a frame reads it for ever.
* C52: enqueueing a bad direction panics but leaves the message in the queue.
* C93: an unknown command is acknowledged without its transaction number; an acknowledgement or signature of odd size is answered as an unknown command.
* C95: a numbered request is answered with its number if identification starts later in the same frame, without it if in the next.
* C92: the play state is "stopped", "playing" and "paused" at once, the number of tracks 0 and 1, depending on the request.
* C53: the trace viewer drops messages after an unfinished frame.
* C54: recording over a longer file leaves the old tail.
* C55: with two goroutines the file order need not be the order of the transfers.
* C58: token lists and lengths above 255 wrap silently.
* C66: a reply can be encoded in a later command's transaction mode.
* C68: read errors are not recorded, so a replay can send replies the session did not.
* C72: a lost device makes the server loop for ever.
* C78: a recorded read of fewer than three bytes silently ends the send mode.
* C126: with send -w an answer can stand before its request in the file (`C126_order_refuted`), and the recording, in which the
  requests are outgoing, cannot be used to send them again: send offers the device its own answers.
* C107: the send mode never returns.  Once the device has reported io.EOF and the trace is sent, both goroutines are at
  rest for good (`select {}`); Go's runtime, outside the model, ends such a process as a deadlock if nothing else runs.
* C79: after a failed read the replay of a trace can crash although the session did not.
* C77: a token cut off by the end of the packet is accepted with zero fields.
* C83: `Transaction.GoString` shows the hexadecimal of the text, as 0x307830303132.
* C88: an identification with 63 tokens makes the server send a 256-byte reply, which is not a packet.
* C90: a trace recorded over a longer one replays requests that the session did not have.
* C97: a request without its number is answered so that the library misreads the reply; track texts cannot be read back.
* C100: one changed length byte crashes the server; a packet inside a damaged packet is executed; swapped payload bytes pass the check sum.
* C101: a lost middle report crashes the server; two rests of frames can make a request nobody sent.
* C105: a certificate section that is sent again is kept twice; five kinds of requests are answered differently the second time.
* C106: a transaction number that arrives while numbers are off is understood but not written again; an identify token that claims more lingoes than it has is filled up, and the command, encoded again, cannot be decoded; an accessory's authentication data cannot be encoded at all.
* C108: a comment line within a frame of a trace costs the frame in a replay, anywhere ends the send command, and keeps the viewer from showing anything.
* C109: requests of ten commands cannot be exchanged with every other; entering and leaving the extended mode, certificate sections and the like are answered by what came before.
* C111: an accessory without numbers sees the count of the one before if it starts identification in the middle of a frame.
* C112: if a trace file lacks its last newline and another is put behind it, the first message of the other is lost without notice; if the first leaves transaction numbers on, packets of the other with a body of variable size are shown otherwise than alone.
* C113: a frame of several reports whose first report is lost is not dropped: the rest is taken for a frame, and bytes inside a packet's body can act as a packet, say turn transaction numbers on.
* C114: what a device returns for an identification token is ignored: refused tokens are acknowledged as taken.
* C115: `accCertBuf` and `trxCounter` are package variables: with two servers in a process, sections of one accessory's
  certificate get into another's, and one accessory's StartIDPS sets back the numbers of another's questions.
* C116: certificates, token lists and unfinished frames are collected without a limit; an accessory can make the server
  use memory without end, with every packet acknowledged.
* C117: built with Go up to 1.21 the tool crashes on one identification token it does not know; built later it does not.
  This is the only difference the version makes in the model.
* C118: the server does not notice that its replies cannot be sent; what a write returns has no effect on a run.
* C119: registering the same commands twice makes every command of variable size unknown; registering a command for the general lingo without handling it silences the refusal it got before.
* C122: a reply whose report is refused by the device file is lost; it is not sent again.
* C123: in a trace, the beginning of a reply that was broken off makes the viewer show the next reply too early, or stop and leave out later requests.
* C124: a recording cut within a line makes the viewer refuse the whole file, or can crash the replay although the session did not crash.
* C79: a crash behind a failed read may not be repeated by the replay, as failed reads are not recorded (`C79_repeated_refuted`).
* C125: nothing tells the user that a recording failed; the errors of the trace file are dropped.
* C102: one recorded read of fewer than three bytes keeps the rest of the session from being repeated.
* C103: the viewer has a new decoder for every frame and the server one for all, so the viewer can crash on the trace of a session the server lived through, and can show to its end the trace of one that crashed the server.
* C104: a report between the first and the last that comes twice can turn a request into another one.
* C73, C74, C76: frames, protocol strings, unknown payloads and certificates handed out change later.

## Properties

| id | property | modelled | how it is proved | theorems |
|---|---|---|---|---|
| C01 | Checksum closes to zero and catches any single-byte change | `Checksum`, `ReadPacket` | sum modulo 256 over an independent `sum_bytes`; a change of one byte changes the sum | `C01_checksum_closes` `C01_checksum_meaning` `C01_single_byte_change` `C01_corruption_rejected` |
| C02 | CRC8 hash object is incremental | `crc8` methods | induction over any sequence of calls on the hash object | `C02_crc8_incremental` |
| C03 | Packet wire format | `WritePacket` | case analysis on the length against `is_packet` of SpecPacket | `C03_wire_format` `C03_wellformed_iff` `C03_256_malformed` |
| C04 | Empty payload writes nothing | `WritePacket` | case analysis | `C04_empty_payload` `C04_write_extends` |
| C05 | Packet stream round trip | `WritePacket`, `ReadPacket`, `parseHeader`, `parsePacket` | induction over the list of payloads; both directions for single payloads | `C05_stream_roundtrip` `C05_single_iff` |
| C06 | Leading junk and trailing padding are invisible | `ReadPacket` | induction over packets and filler | `C06_filler_invisible` |
| C07 | Every delivered payload is really in the frame | `ReadPacket` on slices with capacity | equivalence with the wire grammar | `C07_delivered_iff` |
| C08 | Reading a frame terminates | `ReadPacket`, repeated calls | the number of start bytes left is a strictly decreasing measure | `C08_reading_terminates` `C08_each_call_shortens` |
| C09 | ReadPacket never crashes on malformed input (refuted) and exactly when it does | `parsePacket` on slices with capacity | equivalence with a condition on bytes and capacity; witness | `C09_panic_iff` `C09_never_panics_refuted` |
| C10 | A truncated packet is never delivered and never reported as truncated | `ReadPacket` | corollaries of the exact characterisation | `C10_truncated_never_delivered` `C10_unexpected_eof_iff` |
| C11 | Resynchronisation after a corrupt packet | `ReadPacket` | position of the next start byte | `C11_resync` |
| C12 | Lingo/command id packing | `NewLingoCmdID`, `LingoID`, `CmdID` | bit arithmetic as division | `C12_parts` `C12_injective` `C12_repack` |
| C13 | Wire form of command ids | `marshalLingoCmdID`, `unmarshalLingoCmdID` | case analysis on the lingo | `C13_roundtrip` `C13_parse` `C13_truncation` `C13_short_packet` |
| C14 | Fixed-size command round trip | `MarshalCmd`, `UnmarshalCmd`, layouts of all fixed-size types | generic codec induction over layouts; sweep over the type table | `C14_fixed_roundtrip` `C14_ackdatadropped_with_trx` |
| C15 | Variable-size command round trip | the same for types with their own codecs | one lemma per codec, composed with the command codec | `C15_variable_roundtrip` `C15_unconditional_refuted` |
| C16 | Payload type selection by size | `Lookup` | the first match of the candidate list; sweep over all pairs sharing an id | `C16_selection` `C16_ackdatadropped_confused` `C16_no_other_confusion` |
| C17 | Transaction mode follows the last control command | `handleCmdID` in both directions | induction over any sequence of calls | `C17_mode_history` `C17_last_control` `C17_no_control` |
| C18 | Transaction ids go on the wire exactly when enabled and present | `MarshalCmd` | equality with an independent concatenation | `C18_wire_form` `C18_any_payload` `C18_values` `C18_sizes` |
| C19 | Unknown commands are preserved verbatim | `UnmarshalCmd` | case analysis on lookup | `C19_unknown_verbatim` `C19_unregistered` |
| C20 | UnmarshalCmd never crashes on malformed input (refuted) and exactly when it does | `UnmarshalCmd` and all `UnmarshalBinary` | exact characterisation, induction over the token list | `C20_panic_iff` `C20_never_panics_refuted` |
| C21 | Short fixed-size payloads are rejected, longer ones lose only their tail | `UnmarshalCmd` | codec lemmas on short and long inputs | `C21_short` `C21_long` |
| C22 | Which payloads can be marshalled | `MarshalCmd`, all `MarshalBinary` | case analysis over payloads, induction over token lists | `C22_marshal_exactly` `C22_nil_payload` `C22_decoded_never_panics` `C22_nil_interface_panics` |
| C23 | Registry is consistent | `RegisterLingos`, `storeMapping`, `Lookup`, `LookupID` | induction over registrations; sweep over the shipped table | `C23_lookup_id` `C23_candidates` `C23_lookup` `C23_register` `C23_shipped` `C23_all_registered` `C23_table_order` |
| C24 | DumpLingos does not depend on map order | `DumpLingos` with an arbitrary map order | a sorted permutation is unique | `C24_listing` `C24_map_order` |
| C25 | Respond answers in kind | `Respond`, `BuildCommand` | case analysis | `C25_respond` `C25_non_pointer` |
| C26 | Transaction numbers from TrxNext | `TrxNext`, `TrxReset` as atomic steps | induction over interleavings; modular arithmetic | `C26_kth_number` `C26_distinct` `C26_after_reset` |
| C27 | Transaction arithmetic wraps | `Delta`, `Copy` | modular arithmetic | `C27_delta` `C27_delta_inverse` `C27_copy_and_nil` |
| C28 | Replies carry the request's transaction | the four handlers over an arbitrary device | case analysis over requests, invariant over the event log | `C28_decoded_requests` `C28_general` `C28_ext` `C28_disp` `C28_audio` |
| C29 | Acks name the command they acknowledge | the same | the same, with the truncation of ids | `C29_acks` `C29_decoded` |
| C30 | Remote UI mode follows Enter/Exit | `HandleGeneral`, histories of requests | induction over histories against `entered` of SpecHandlers | `C30_remote_mode` `C30_ui_mode` `C30_change` `C30_tool_device` |
| C31 | An acknowledged SetUIMode takes effect (refuted) | `HandleGeneral` | case analysis; witness with the shipped device | `C31_never_set` `C31_refuted` |
| C32 | FID tokens: one ack per token, in order, and all are kept | `HandleGeneral`, `DevGeneral` | induction over tokens and over histories | `C32_acks` `C32_decoded` `C32_kept` |
| C33 | Accessory certificate reassembly | `HandleGeneral`, certificate buffer | induction over histories | `C33_certificate` `C33_whole` |
| C34 | End of IDPS | `HandleGeneral`, `Send` | case analysis; counter as state | `C34_end` `C34_start` `C34_first_number` `C34_counter` |
| C35 | Authentication starts the audio lingo once per certificate | `handlePacket`, `audio.Start` | case analysis | `C35_audio_start` |
| C36 | Handlers answer exactly the requests they should | all handlers | case analysis against the reply table of the specification | `C36_general` `C36_ext` `C36_disp` `C36_audio` `C36_unknown` `C36_status` |
| C37 | Every reply reaches the wire (refuted) | all handlers, `MarshalCmd` | sweep over reply types; induction over acks | `C37_unsent` `C37_missing_ack` `C37_refuted` `C37_tool_device` |
| C38 | HID frame round trip | `WriteFrame`, `ReadFrame`, `Pick`, `Find` | induction on remaining bytes; several frames by induction | `C38_frames_roundtrip` `C38_tables_usable` |
| C39 | Shape of the report sequence | `WriteFrame` over an arbitrary report writer | induction on remaining bytes against `segments` of SpecHid | `C39_report_shape` `C39_segments` `C39_any_writer` `C39_empty_frame` `C39_no_definition` |
| C40 | WriteFrame terminates | `WriteFrame` with fuel | fuel bound; divergence for every fuel | `C40_terminates` `C40_single_report` `C40_len1_never_terminates` `C40_len0_panics` |
| C41 | Pick chooses the first report that fits | `Pick` | induction over the table; witness for the default table | `C41_pick` `C41_pick_fails` `C41_legacy_smallest` `C41_default_smallest_refuted` `C41_shipped` |
| C42 | HID reassembly follows link control | `ReadFrame` | induction over reports against a relational specification proved functional | `C42_frame` `C42_frame_unique` `C42_error` `C42_panic` `C42_no_leak` |
| C43 | Raw report encoding round trip | `ReadReport`, `WriteReport` | case analysis on the read result | `C43_raw_roundtrip` `C43_raw_long_truncated` `C43_read_errors` `C43_write` `C43_single` `C43_single_endless` |
| C44 | Packets survive the HID transport | packets over HID | composition of C06 and C38 | `C44_packets_over_hid` `C44_streams_over_hid` `C44_shipped_tables` |
| C45 | Trace message text round trip | `Msg` text codec | induction over bytes | `C45_marshal` `C45_roundtrip` `C45_accepted` |
| C46 | Trace file round trip | `Writer`, `Reader`, `bufio.Scanner` | induction over messages | `C46_roundtrip` `C46_too_long` |
| C47 | Malformed trace lines are isolated | `Reader` | induction over lines, against a relational specification | `C47_mixed` `C47_unique` |
| C48 | Crash while writing a trace | file cut at any byte | induction over lines and within a line | `C48_crash` |
| C49 | Tracing is transparent | `Tracer` over an arbitrary device | induction over calls | `C49_transparent` |
| C50 | Replay reproduces the recorded input | tracer, reader, direction reader | composition of C46 and C49 | `C50_replay` |
| C51 | Trace queue is a FIFO with per-direction removal | `Queue` | refinement to a list by induction over operations | `C51_fifo` |
| C52 | Queue with an invalid direction | `Queue` with bad directions | invariant over histories | `C52_bad_enqueue` `C52_never_returned` `C52_any_history` |
| C53 | Trace view terminates and shows frames in head order | `dumpTrace`, queue, decoder, packet reader | invariant over steps against `shows` of SpecView; fuel bound | `C53_view` `C53_shows` `C53_crash` `C53_fatal` `C53_determined` `C53_complete` `C53_file` `C53_all_shown_refuted` |
| C54 | Recording over an existing file (refuted) | file written at offset 0 without truncation | lengths; witness | `C54_overwrite` `C54_refuted` |
| C55 | Concurrent tracing keeps lines whole | two writers interleaved | induction over interleavings | `C55_whole_lines` `C55_complete` `C55_order_refuted` |
| C56 | Button state codec | `ButtonStates` codec | arithmetic on four bytes | `C56_roundtrip` `C56_parse` |
| C57 | FID token list codec | token and ack codecs | one lemma per token kind, induction over the list | `C57_tokens_roundtrip` `C57_acks_roundtrip` `C57_parsed_consistent` |
| C58 | Oversized token lists corrupt silently (refuted round trip) | the same with long lists | witnesses | `C58_count_wraps` `C58_roundtrip_refuted` `C58_long_token_refuted` |
| C59 | Certificate section parsing | `RetDevAuthenticationInfo` | case analysis | `C59_cert_section` |
| C60 | Display-remote state info codec | `RetiPodStateInfo` | sweep over info types with symbolic fields | `C60_roundtrip` `C60_unknown_type` |
| C61 | Display-remote track info is sent in full (refuted) | `RetIndexedPlayingTrackInfo` | case analysis; witness | `C61_text_lost` `C61_text_sent_refuted` `C61_sized_sent` |
| C62 | Extended-remote list codecs | list and string codecs | induction over lists | `C62_artwork` `C62_artwork_partial_entry` `C62_sample_rates` `C62_strings` `C62_model_number` |
| C63 | Booleans and strings | `util.go` | computation | `C63_bool` `C63_only_one_is_true` `C63_string` |
| C64 | Requests are answered in order, one packet per frame | `processFrames`, `handlePacket`, transports | induction over runs against `answers`/`serves` of SpecServer | `C64_frame` `C64_deterministic` `C64_order` `C64_decodes_back` `C64_runs` `C64_session` `C64_unsendable_silent` |
| C65 | Garbage in, nothing out | the same | corollaries | `C65_frame` `C65_no_start_byte` `C65_session` |
| C66 | Replies use the transaction mode of their request (refuted) | the same | the mode of a frame as a fold over its packets; witness | `C66_frame_mode` `C66_mode_of_request` `C66_mode_of_request_refuted` |
| C67 | The server never crashes on accessory input (refuted) | the same | induction over runs with the exact panic conditions of C09 and C20; witnesses through the real buffers | `C67_frame` `C67_runs` `C67_safe` `C67_hid_sturdy` `C67_no_crash_refuted` |
| C68 | Replay of a recorded session gives the same replies | server, tracer, trace file, replay | simulation between the recorded and the replayed run | `C68_replay` `C68_errors_refuted` |
| C69 | Getters answer with the device's own values | `HandleGeneral` over an arbitrary device | case analysis against a table of getters | `C69_answers` |
| C70 | The device is called exactly as the request says | the same | case analysis against a table of calls | `C70_calls` `C70_state` |
| C71 | Track info text reaches the accessory (refuted) | `HandleDispRemote`, `MarshalCmd` | composition; witness | `C71_text_lost` `C71_refuted` |
| C72 | A lost device ends the server (refuted) | `processFrames` | divergence for every fuel by induction | `C72_lost_device` `C72_lost_hid_device` |
| C73 | A frame is valid until the next ReadFrame and is overwritten by it | `ReadFrame`, `ReadReport`, `ReadPacket` on a heap | refinement to the value model; invariant over steps | `C73_same_frame` `C73_same_packets` `C73_valid_until_next` `C73_overwritten` `C73_valid_for_ever_refuted` `C73_report_data` |
| C74 | What a device keeps of a decoded command keeps its value (refuted) | `UnmarshalCmd`, token codecs on a heap | refinement; separation invariant over steps; witnesses | `C74_decoded` `C74_valid_until_next` `C74_rest_is_kept` `C74_tokens_kept_refuted` `C74_unknown_kept_refuted` |
| C75 | Behaviour on a frame depends on that frame only (refuted) | server on the heap transport | simulation; witness | `C75_covered` `C75_stale` `C75_frames_are_independent_refuted` |
| C76 | The certificate given to the device | certificate buffer on the heap | invariant over steps; witness | `C76_certificate` `C76_valid_until_next` `C76_valid_for_ever_refuted` |
| C77 | Every packet is decoded to its one meaning | `UnmarshalCmd` and all `UnmarshalBinary` methods | equivalence with the inductive reading relation `command_reads` of SpecPayload and SpecCommand, by induction over lists and case analysis over message types | `C77_decodes` `C77_one_meaning` `C77_token` `C77_cut_token_accepted` |
| C78 | Send mode writes exactly the recorded requests | `send_once`, `receiver` and the interleaving `send_step` of the send command; the receiver is `processFrames` on the reads it got so far | invariant over all interleavings relating what was written to `to_send` on the messages of the file | `C78_sent` `C78_determined` `C78_completes` `C78_recorded` `C78_receiver` `C78_all_sent_refuted` |
| C79 | A crash is reproduced by replaying its trace | `crashes_at`: whole rounds of the loop, then a frame whose processing panics; `traced` and `replayed` transports of C68 | induction over the rounds, simulating the traced transport by the list of its reads and that list by the replay of the file | `C79_at_read` `C79_repeated_refuted` `C79_crash_point` `C79_crash_replayed` `C79_only_crash_refuted` |
| C80 | The viewer shows a recorded session in order | `watched`: the server's transport over the tracer, noting frames read and written; `dumpTrace` | the messages of a session are cut into blocks, one per frame; each block is the viewer's next frame whatever follows | `C80_watched` `C80_session_viewed` |
| C81 | Every value has its own name | the generated String methods with their name strings and offset tables, slices that panic when out of range (Text.v); `text_of` with the declared constants (SpecText.v) | case analysis over the table entries, and an invariant of the digit loop for the numbers; injectivity of numerals | `C81_names` `C81_names_differ` |
| C82 | The text of a mask lists its bits | the loop over 32 bits and strings.Join; `mask_text` says which bits and how separated | induction over the rounds; injectivity because labels have no blanks | `C82_lingo_mask` `C82_button_mask` `C82_masks_differ` |
| C83 | Ids and transactions are shown in full | fmt's %#0wx; `hexadecimal` is positional notation with a least width | induction over the digits; numerals of equal length are equal | `C83_id_text` `C83_ids_differ` `C83_transaction` `C83_transactions_differ` `C83_transaction_GoString_refuted` |
| C84 | A log line shows its entry, once and in a fixed order | Format and print with the fields as an association list in traversal order; `log_line` | insertion sort is sorting; the sorted order of distinct keys is unique | `C84_line` `C84_map_order` `C84_one_line` |
| C85 | Identification is reported exactly | EndIDPS's report and the log of the handlers (Log.v); `said`, `report` (SpecLog.v) | induction over the requests, with the calls each request makes on the device (C37's spec), the tokens kept (C32) and the certificate assembled (C33) | `C85_said` `C85_report` `C85_decoded` |
| C86 | The viewer's log tells the trace | the log calls of dumpTrace on the frames shown (Log.v); `view_entries`, `happens` (SpecLog.v, SpecServer.v) | induction over the entries and packets; the specification has one solution | `C86_viewer` `C86_lines` |
| C87 | The server's log tells the session | processFrames with its log (Log.v); `transcript` (SpecLog.v) | erasing the log gives the run of Server.v for every fuel; induction over the run; the specification has one solution | `C87_same_run` `C87_transcript` |
| C88 | The viewer's log repeats the server's log | both loops with their logs (Log.v); `incoming`, `replies_sent`, `replies_viewed` (SpecLog.v), `readable` (SpecSession.v) | the log follows the happenings on the transport (from C87), the trace has one block of messages per happening (from C80); induction over the happenings with the transaction mode as invariant | `C88_agree` `C88_agree_log` `C88_agree_tokenless` `C88_unreadable_reply_refuted` `C88_crash` |
| C89 | A command changes only what it was given, and stops cleanly when it cannot start | all actions of `main` over a world of files and devices (Main.v); problems, starts and effects in SpecMain.v | case analysis over the order of opening, with the server's log from C87 and the viewer's from C86 | `C89_untouched` `C89_problem_or_start` `C89_stops` `C89_lingos` `C89_serve` `C89_replay` `C89_view` `C89_send` |
| C90 | serve -w, then replay or view: the tool repeats its own session | runs of the whole tool (Main.v); `fresh`, `same_entry` (SpecMain.v) | a simulation between transports that relates the logs too; the reads of the session are the reads of the replay (as in C68) | `C90_recording` `C90_replay` `C90_view` `C90_stale_refuted` |
| C91 | What the program tells about the player, byte by byte | handlers, dispatcher and marshalling (Handlers.v, Command.v); the tables of bytes are in SpecAnswers.v | symbolic execution of the dispatcher per request type, then marshalling of the reply; arithmetic for the date | `C91_fixed` `C91_state` `C91_date` `C91_track` `C91_track_caps` `C91_track_artwork` `C91_signature` |
| C92 | The same fact is told the same by every lingo | as C91 | from C91, request after request | `C92_play_state` `C92_tracks` `C92_refuted` |
| C93 | The server is a small protocol machine | decoder, registry, handlers, dispatcher, tool device, marshalling, packet writer, frame loop; the machine in SpecProtocol.v, sessions in SpecWire.v | one lemma per request that handling the decoded content does what the row says; the table covers exactly the registered types that have reactions (checked by computation on the registry); agreement of the size-based lookup with the machine's; induction on packets and on frames | `C93_frame` `C93_session` `C93_unknown` |
| C94 | From HID reports to HID reports | as C93, with the HID transport over a device of lists (SpecWire.v) | the device's reads against the list reader of C42; the writes against C39; then induction on what arrives | `C94_memory` `C94_wire` `C94_departs_unique` `C94_accessory` |
| C95 | Only the memory counts, and not how packets are grouped | as C93 and C94 | C93 gives the reaction as a function of the memory; induction on the frames read; receiving a concatenation of packets is receiving the parts, and no row of the table changes the mode | `C95_memory_counts` `C95_grouping` `C95_grouping_wire` `C95_switching_refuted` |
| C96 | Replies are bounded | as C93 | bounds for every row of the request table, induction on tokens and packets; the definition of the report sequence | `C96_bounded` `C96_reports` `C96_tables` |
| C97 | An accessory that uses the library reads the server's replies | as C28-C37 and C14-C15 | classification of everything each handler case writes, then the round trips of C14 and C15, with the text and empty track information separately | `C97_fixed` `C97_read` `C97_unnumbered_refuted` |
| C98 | The log a crash leaves behind tells the run up to the crash and which frame caused it | the loop of the server with each entry written when the code writes it (LogKept) | agreement with the logged loop of C87 when the code ends; induction on the run and on the packets of the crashing frame against the specification cut_short, which is shown to determine the log | `C98_same_run` `C98_cut_short` `C98_last_frame` |
| C99 | Talking to the server over HID is calling its handlers | all layers as in C03-C44, C64, C97 | round trips of C14, C15, C38 and C97 composed by induction on the commands, with the bound of C96 for the lengths of replies | `C99_dialogue` `C99_memory` |
| C100 | A packet damaged on the way is as if it had not been sent | packet reader (C06-C11) and the loop of processFrames (C64) | the damaged packet is rejected (C01), and what is left of it is filler for the next search; two frames with the same packets give the same commands | `C100_never_sent` `C100_session` `C100_packets_only` `C100_length_refuted` `C100_inside_refuted` `C100_order_refuted` |
| C101 | A lost report costs its own frame only | decoder, packet reader, server and the reused buffers (C42, C94, C73) | induction over the frames sent, with the reports kept of an unfinished frame as state; the session is then that of C94 | `C101_resync` `C101_never_sent` `C101_memory` `C101_middle_refuted` `C101_mixed_refuted` |
| C102 | A recorded session can be repeated on another server with the send command | the server on a traced device, the send mode as interleaved steps of two goroutines, and a server on a wire that reads what was written (PropRepeat.v; specification SpecRepeat.v) | simulation of the run on the list of reads by the run on the wire, with C78's account of what is sent for every interleaving; the finding on short reads by computation | `C102_repeated` `C102_crash` `C102_short_refuted` |
| C103 | The viewer with the buffers it really has | dumpTrace with a new decoder (array of bytes.Buffer) per frame (MemView.v; server's buffers in Mem.v) | simulation with the value model for some spare bytes, and an invariant that a new buffer's array is zero behind its length, along a trace with the queue's invariant (MemViewMore.v); two sessions by computation (PropMemView.v) | `C103_covered` `C103_zeros` `C103_trace` `C103_survivor_refuted` `C103_crash_hidden_refuted` |
| C104 | Reports that arrive more than once | the decoder, the packet reader and the server on a wire (Hid.v, Packet.v, Server.v, Mem.v); specification SpecTwice.v | induction over the frames into C101's relation of frames and losses, then C101 (PropTwice.v); a request and its changed answer by computation | `C104_again` `C104_memory` `C104_middle_refuted` |
| C105 | Sending a request again | the server on HID reports and with the real buffers (Server.v, Mem.v); kinds of packets in SpecRetry.v | rows of the request table are idempotent; conversations composed; the reports written are determined by the frames (RetryThms.v, PropRetry.v) | `C105_again` `C105_memory` `C105_modes` `C105_delicate_refuted` `C105_certificate_refuted` |
| C106 | Taking packets apart and putting them together again | both directions of the command codec (Command.v, Payload.v), the server on HID reports; the relay in SpecRelay.v | case analysis over the payload decoders, induction over tokens and acknowledgements; the round trips of C14 and C15; wire forms are functional; frames with equally decoded packets get equal replies, by the protocol machine of C93 (RelayThms.v, PropRelay.v) | `C106_same` `C106_stable` `C106_exact` `C106_unknown` `C106_when` `C106_session` `C106_number_refuted` `C106_tokens_refuted` `C106_authentication_refuted` |
| C107 | How the send mode comes to rest | the send mode (Send.v): both goroutines as a step relation | the receiver waits, ends or has crashed according to its reads (induction over the report and frame loops); rest by case analysis on the steps; well-foundedness by a measure (SendEndThms.v, PropSendEnd.v) | `C107_rest` `C107_receiver` `C107_ends` `C107_sent` |
| C108 | What of a trace file matters | the trace reader, the direction filter, replay, send and view (Trace.v, Server.v, Send.v); lines and messages in SpecEdit.v | every text has lines and one list of incoming messages; the replaying reader and the listed device are in a simulation through report and frame loops; frames with lines between them arrive as C94 wants them (EditThms.v, PropEdit.v) | `C108_lines` `C108_replay` `C108_send` `C108_view` `C108_join` `C108_notes` `C108_notes_refuted` `C108_memory` |
| C109 | The order of requests | the server over HID with the real handlers, also with the real buffers (Server.v, Mem.v); the tied commands in SpecOrder.v | C94 turns sessions into conversations of the protocol machine; each row but the tied ones leaves the memory alone and answers by the request alone, so that its frames commute with all that keep the mode of numbers (OrderThms.v, PropOrder.v) | `C109_moved` `C109_free` `C109_memory` `C109_tied_refuted` |
| C110 | Identification and authentication over the wire | the server over HID with the real handlers, also with the real buffers (Server.v, Mem.v); sections, steps and interleavings in bytes in SpecIdentify.v | induction over the arriving reports shows that the handlers are told the decoded packets in order; decoding and handling a packet are related to its bytes for certificate sections; the replies come from the protocol machine (C94) and from steadiness of free frames (C109) (IdentifyThms.v, PropIdentify.v) | `C110_told` `C110_certificates` `C110_certificates_memory` `C110_whole` `C110_handshake` `C110_handshake_memory` |
| C111 | A new start | the server over HID with any results of reads, also with the real buffers; the two frames of a new start and their answers in bytes in SpecRenew.v | any input on which the server does not crash consists of frames (wire_arrives); a broken-off frame is dropped by a starting report; every row of the protocol machine is shown to commute with a shift of the clock readings and, without numbers, with another count (RenewThms.v, PropRenew.v) | `C111_renewed` `C111_renewed_plain` `C111_memory` `C111_number_refuted` |
| C112 | Joined trace files | the view, send and replay commands on the text of files; the packets shown and whether they leave numbers on in SpecJoin.v, in bytes | time stamps, which differ in the joined file, are shown not to matter; taking frames from the queue is stable under messages behind; the views are put together by induction on the frames (JoinThms.v); send and replay follow from C108 and C111 (PropJoin.v) | `C112_view` `C112_view_anew` `C112_view_bad` `C112_send` `C112_replay` `C112_numbers_refuted` `C112_newline_refuted` |
| C113 | Disturbances are contained | the server on any device input; the packets that can be found in reads, and noise, in SpecDisturb.v, in bytes and reports | every packet the server gets is found in the reads (induction on the arriving frames); noise makes only empty frames; the frames of a proper accessory end what was begun, so the runs are put together as conversations (DisturbThms.v), and carried over to the real buffers (PropDisturb.v) | `C113_noise` `C113_contained` `C113_noise_memory` `C113_lost_refuted` |
| C114 | Any device behind the server | the server over an arbitrary record of methods with an arbitrary state; when two devices answer alike, and which reply tells which answer, in SpecPlug.v | a relation between the runs of all handlers of the two devices, by cases on the request; carried to frames and reports by induction on the input (PlugThms.v) | `C114_same` `C114_answers` `C114_refused_refuted` |
| C115 | Servers that share a process | the server with any change of the package variables before each command (Shared.v); what may differ in SpecShared.v | a relation between the runs of all handlers that forgets the package variables, carried to frames and reports by induction on the input (SharedThms.v); the findings by computation with any device | `C115_replies` `C115_cert_refuted` `C115_numbers_refuted` |
| C116 | What the server holds on to | the server's state after a session; what it holds as a fold over packets in SpecHeld.v, bytes only | decoding and handlers give one step of the fold for each packet, induction on the input; the bound by induction on packets and on tokens (HeldThms.v); the capacity by an invariant of the frame loop over the memory model | `C116_capacity` `C116_growth` `C116_kept` `C116_held` `C116_bounded` `C116_bounded_memory` `C116_frame` `C116_certificate_refuted` `C116_tokens_refuted` `C116_frame_refuted` |
| C117 | Built with another version of Go | the model's flag rt (whether binary.Size(nil) panics) in all functions that depend on it; strange tokens defined on bytes in SpecVersions.v | a relation between outcomes kept by all binds, induction on fuel and lists for server, viewer, tool and sender; the exact condition through the protocol machine (C93, C94) and the reader of tokens (VersionThms.v) | `C117_decode` `C117_encode` `C117_server` `C117_tool` `C117_send` `C117_session` `C117_same_refuted` |
| C118 | Any transport under the server | transports as a record of two functions on a state; carry_alike in SpecTransport.v relates two of them through the packets their frames hold | a panicking counterpart of the reader's run on a frame (induction over the packets a frame holds), then a simulation by induction on fuel; for HID both runs are matched with one function of the packets alone (TransportThms.v) | `C118_same` `C118_write_errors_refuted` `C118_table` |
| C119 | Registering commands | the registry is a list of id and type in the order of registration; the tables of the packages and the registry behind an order of them in SpecRegistry.v | lookups depend on the types of an id in order (filter), no two packages share an id or a type (computed once over the tables); a server run by induction on fuel with the two lookups as the only use of the registry; for foreign commands a simulation in which a decoded foreign command and an unknown one are both ignored (RegistryThms.v) | `C119_server` `C119_order` `C119_lingo` `C119_missing` `C119_added` `C119_unhandled` `C119_again` `C119_again_refuted` `C119_silenced_refuted` |
| C120 | The clock | time.Now as a function from the number of the reading to a date (Handlers.v); the date as told and the relation of the frames sent under two clocks in SpecClock.v | the handlers run in step under the two clocks, whatever is in the log, the events differing in the dates only (one tactic over the primitives), then through marshalling and by induction over the packets that arrive; that other packets take no reading by a second pass over the primitives (ClockThms.v) | `C120_readings` `C120_alike` `C120_unasked` |
| C121 | An accessory that reacts | an accessory as a state with a function for its reads and one for the reports it gets, behind the HID transport; what passes between the two, in order, as a relation (SpecReact.v) | the run with the accessory and the run on the list of its reads go in step: one frame by induction on its reports, one reply by the report writer's offer, the session by induction on fuel; the state at each read by the same induction, the frame begun being dropped at io.EOF (ReactThms.v) | `C121_reacts` `C121_machine` `C121_memory` |
| C122 | Replies that are not taken | a device file as a state with a function for its reads and one for its answers to writes; what passes, in order, and which writes frames are tried with, as relations (SpecRefuse.v) | the run is carried (C118) to one with an accessory that takes everything and looks away, after a refusal, up to the next report that starts a frame; C121 is applied to that one, and its reports are mapped back; reading by induction on the frames tried, a broken frame leaving reports that end nothing (RefuseThms.v) | `C122_server` `C122_machine` `C122_memory` `C122_read` `C122_taken` `C122_again_refuted` |
| C123 | What a trace tells of refused reports | the tracer over any device file, as in C46; what got across, as messages, from the events of C122 (SpecRefuseTrace.v) | the tracer with its file is itself a device file in the sense of C122, to which C122 is applied; the file by induction on the events; the viewer from C53 and, by induction on the frames tried, the frames that can be read from the reports taken (RefuseTraceThms.v) | `C123_recorded` `C123_memory` `C123_viewed` `C123_order_refuted` `C123_rest_refuted` `C123_short_refuted` |
| C124 | A recording that was cut short | what may be left of a message whose line is cut, and of a list of messages (SpecCut.v); files by their lines as in C108 | the lines of the cut file from C48's cut of lines, then C108 for the replay, the send command and the viewer; the session from C123, its messages split where the events split (CutThms.v) | `C124_file` `C124_session` `C124_moment` `C124_crash_refuted` `C124_view_refuted` `C124_memory` `C124_memory_refuted` |
| C125 | Recording does not disturb the session | a trace file as any state with any answers; a disk that is full after a number of bytes (SpecRecord.v) | two transports over devices that answer alike carry the server alike (C118), the devices being the tracer with one file, the tracer with another, and the bare device (RecordAnyThms.v); the replay from C123 and C124 | `C125_undisturbed` `C125_memory` `C125_disk` `C125_replay` |
| C126 | The send mode with a recording, step by step | the two goroutines with a step for each transfer and one for each line, and what each is about to record (SendTrace.v); the history of the device as a list (SpecSendTrace.v) | two invariants over all executions, one of what is offered and given, one of the lines of the file; the replay from C108 and by relating the waiting receiver to a server on the same reads (SendTraceThms.v) | `C126_sent` `C126_file` `C126_replay` `C126_crash` `C126_resend` `C126_rounds` `C126_completes` `C126_order_refuted` |
| C127 | With the program's own buffers, a replay repeats the session or its crash | The session runs over mem_transport (the real buffers) with the tracer between it and the device; the replay over mem_transport with replay_read. | Induction on the session finds the list of its reads, on which alone the run depends; a simulation then relates a device that gives these reads to the reader of the recording. | `C127_version_refuted` `C127_reads` `C127_same` `C127_alone_refuted` |

## Wrong programs

`seeded/LOG.jsonl` has one line per deliberate bug put into a copy of the model: the definition, the edit, the claim it
breaks, the theorems that stopped proving and the theorems that were tightened because of it. A theorem counts as failed
when its proof, or the proof of a lemma it needs whose statement became false, no longer goes through. The method: the
edited copy is rebuilt; a proof that fails is replaced by `Admitted` so that the rest can go on; then `Print Assumptions`
of every property theorem tells which of them now rest on an admitted lemma.
