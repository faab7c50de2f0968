(** Property C117: the Go version the tool is built with. *)
From Coq Require Import ZifyBool ZifyNat ZifyN Lia.
From Verif Require Import Base BaseFacts GoTypes Types Payload Lingo Command SpecPayload SpecCommand Handlers SpecHandlers HandlersThms
  SpecProtocol Packet SpecPacket Hid SpecHid HidThms Trace SpecTrace Server SpecServer SpecWire ServerThms ProtocolProps Text Log Send Main
  ProtocolMore PropProtocol SpecRetry RetryThms PropRetry SpecRenew PropRenew SpecIdentify SpecVersions VersionThms.
Notation fresh := SpecWire.fresh.

(** Decoding, for any packet and mode: built with an older Go the program crashes on the packets with a
    token it knows nothing of, and on all others it does what it does built with a newer one. *)
Theorem C117_decode numbers packet :
  UnmarshalCmd true std_registry numbers packet
  = if strange_packet numbers packet then Panic else UnmarshalCmd false std_registry numbers packet.
Proof. exact (decode_differ numbers packet). Qed.
Print Assumptions C117_decode.

(** Encoding, for any command. *)
Theorem C117_encode numbers c : same_unless_crash (MarshalCmd true numbers c) (MarshalCmd false numbers c).
Proof. exact (encode_same numbers c). Qed.
Print Assumptions C117_encode.

(** The server, on any transport, with any device and registered commands: the older one crashes or the two do the same. *)
Theorem C117_server {S W} reg clock dev (tp : transport W) fuel (h : hstate S) w :
  same_unless_crash_io (processFrames fuel true reg clock dev tp h w) (processFrames fuel false reg clock dev tp h w).
Proof. exact (server_same reg clock dev tp fuel (mkServer false h) w). Qed.
Print Assumptions C117_server.

(** The tool with any command line, in any file system: files, output and exit code. *)
Theorem C117_tool {D} (devs : io_rw D) os errText sdump certLog clock order spares fuel fuel2 inv w :
  same_unless_crash_io (run_tool devs os errText sdump certLog true clock order spares fuel fuel2 inv w)
                       (run_tool devs os errText sdump certLog false clock order spares fuel fuel2 inv w).
Proof. exact (tool_same devs os errText sdump certLog clock order spares fuel fuel2 inv w). Qed.
Print Assumptions C117_tool.

(** Sending: whatever the older one can come to, the newer one can. *)
Theorem C117_send {S D} reg clock (g : DeviceGeneral S) defs spares h (rd : D -> io (D * raw_read)) wd s s' :
  send_steps true reg clock g defs spares h rd wd s s' -> send_steps false reg clock g defs spares h rd wd s s'.
Proof. exact (send_same reg clock g defs spares h rd wd s s'). Qed.
Print Assumptions C117_send.

(** Sessions over HID, for any input: the older one crashes if a strange token is among what arrives, and
    otherwise the two do the same. *)
Theorem C117_session clock defs spares reads pss fuel :
  usable defs -> arrives defs spares 0 reads pss -> List.length reads < fuel ->
  served true clock defs spares fuel reads
  = if strange_among false (List.concat pss) then Some Panic else served false clock defs spares fuel reads.
Proof.
  intros U A L. pose proof (C94_wire true clock defs spares reads pss fuel fuel U A L L) as T. cbv zeta in T.
  pose proof (C94_wire false clock defs spares reads pss fuel fuel U A L L) as F. cbv zeta in F.
  pose proof (conversation_same clock pss fresh) as C. change (numbered fresh) with false in C. rewrite C in T.
  destruct (strange_among false (List.concat pss)); [exact T|]. unfold served.
  destruct (conversation false clock fresh pss) as [[m fs]|]; [|exact (eq_trans T (eq_sym F))].
  destruct T as (st & rest & k & outs & T & _). destruct (C117_server std_registry clock DevGeneral_device (hid_transport fuel defs spares wire_read wire_write) fuel h0 ((reads, []), 0)) as [P|P]; [|exact P].
  rewrite P in T. discriminate T.
Qed.
Print Assumptions C117_session.

(** Finding: the two are not the same.  One token the program knows nothing of, and the older one crashes; the
    newer one sends nothing for it, goes on, and answers the next request. *)
Definition strange117 : bytes := [x00; x39; x01; x03; x00; x06; xaa].
Definition name117 : bytes := [x00; x07].

Theorem C117_same_refuted clock :
  let reads := reads_of (map request_of [strange117; name117]) in
  served true clock DefaultReportDefs (fun _ => []) 3 reads = Some Panic
  /\ exists st w r, served false clock DefaultReportDefs (fun _ => []) 3 reads = done (st, w)
       /\ snd (fst w) = [r] /\ firstn 15 (skipn 2 r) = [x55; x0e; x00; x08] ++ firstn 11 (c_string "ipod-gadget").
Proof. cbv zeta. split; [vm_compute; reflexivity|]. do 3 eexists. split; [vm_compute; reflexivity|]. repeat split. Qed.
Print Assumptions C117_same_refuted.

(** A session without a strange token: a token the program knows comes, and then the name is asked for; and one with
    a strange token behind it, read with transaction numbers. *)
Definition plain117 : list bytes := [[x00; x39; x01; x03; x00; x00; x00]; name117].
Definition numbered117 : list bytes := [[x00; x38; x00; x01]; [x00; x39; x00; x02; x02; x03; x00; x00; x00; x03; x00; x06; xaa]].

Example C117_case :
  usable DefaultReportDefs
  /\ arrives DefaultReportDefs (fun _ => []) 0 (reads_of (map request_of plain117)) (map (fun p => [p]) plain117)
  /\ arrives DefaultReportDefs (fun _ => []) 0 (reads_of (map request_of numbered117)) (map (fun p => [p]) numbered117)
  /\ strange_among false (List.concat (map (fun p => [p]) plain117)) = false
  /\ strange_among false (List.concat (map (fun p => [p]) numbered117)) = true
  /\ served true clock_ticking DefaultReportDefs (fun _ => []) 3 (reads_of (map request_of numbered117)) = Some Panic
  /\ (exists st w, served true clock_ticking DefaultReportDefs (fun _ => []) 3 (reads_of (map request_of plain117)) = done (st, w) /\ List.length (snd (fst w)) = 2).
Proof.
  split; [exact default_usable|]. split; [|split; [|split; [reflexivity|split; [reflexivity|split; [vm_compute; reflexivity|]]]]].
  - apply (sent_arrives DefaultReportDefs (fun _ => []) (map request_of plain117)).
    repeat (apply Forall2_cons; [apply request_sent; [split; vm_compute; (reflexivity || discriminate || (split; discriminate))|vm_compute; lia]|]). apply Forall2_nil.
  - apply (sent_arrives DefaultReportDefs (fun _ => []) (map request_of numbered117)).
    repeat (apply Forall2_cons; [apply request_sent; [split; vm_compute; (reflexivity || discriminate || (split; discriminate))|vm_compute; lia]|]). apply Forall2_nil.
  - do 2 eexists. split; [vm_compute; reflexivity|]. reflexivity.
Qed.
