(** Properties C93, C94: the server is the protocol machine, on frames and on HID reports. *)
From Coq Require Import ZifyBool ZifyNat ZifyN Lia.
From Verif Require Import Base BaseFacts GoTypes Types Payload Lingo Command SpecPayload SpecCommand Handlers SpecHandlers
  SpecProtocol Packet SpecPacket Hid SpecHid HidThms Trace SpecTrace Server SpecServer SpecWire ServerThms ProtocolProps.

(** ** Examples *)

Definition clock0 : nat -> datetime := fun _ => (2024, 5, 17, 12, 30)%N.
Definition h0 : hstate DevGeneral := mkH DevGeneral_init [] 0 0 [].

(** A frame holding given packets, and filler. *)
Definition frame_with (ps : list bytes) : bytes := flat_map (fun p => x00 :: frame_bytes p) ps ++ [x00].

(** ** C93 *)

(** One frame, on any transport.  The packets [ps] of the frame and the machine's memory tell the
    frames sent and the next memory, or that the server crashes. *)
Theorem C93_frame {W} rt clock (tp : transport W) st w fr ps :
  sound st -> holds fr ps ->
  match receive_frame rt clock (memory_of st) ps with
  | None => process_frame rt std_registry clock DevGeneral_device tp st w fr = Some Panic
  | Some (m, fs) =>
      exists st', sound st' /\ memory_of st' = m
        /\ process_frame rt std_registry clock DevGeneral_device tp st w fr = (go w' <- feed tp w fs; done (st', w'))
  end.
Proof. exact (frame_received rt clock tp st w fr ps). Qed.
Print Assumptions C93_frame.

(** A whole session from the start: the frames sent are those of the machine's conversation. *)
Theorem C93_session rt clock ins pss fuel :
  hears ins pss -> List.length ins < fuel ->
  match conversation rt clock fresh pss with
  | None => processFrames fuel rt std_registry clock DevGeneral_device script h0 (ins, []) = Some Panic
  | Some (m, outs) =>
      exists st' rest, memory_of st' = m
        /\ processFrames fuel rt std_registry clock DevGeneral_device script h0 (ins, []) = done (st', (rest, outs))
  end.
Proof.
  intros H L. pose proof (session_received rt clock ins pss H fuel (mkServer false h0) [] sound_init L) as R.
  change (memory_of (mkServer false h0)) with fresh in R.
  destruct (conversation rt clock fresh pss) as [[m outs]|]; [|exact R].
  destruct R as (st' & rest & _ & M & E). exists st', rest. auto.
Qed.
Print Assumptions C93_session.

(** An unknown command of the general lingo is acknowledged with status 5 and its identifier, and
    without a transaction number even if it had one.  An acknowledgement or a signature of unknown
    size counts as an unknown command. *)
Theorem C93_unknown {W} rt clock (tp : transport W) st w fr c b :
  sound st -> holds fr [x00 :: c :: b] -> ~ In (b2n c) known_general -> ~ In (List.length b) (known_sizes c) ->
  exists st', memory_of st' = memory_of st
    /\ process_frame rt std_registry clock DevGeneral_device tp st w fr
       = (go w' <- feed tp w [frame_bytes [x00; x02; x05; c]]; done (st', w')).
Proof. exact (unknown_received rt clock tp st w fr c b). Qed.
Print Assumptions C93_unknown.

(** A session: start of identification (transaction numbers are switched on, and the request is
    acknowledged), a request for the name with number 0x1234, an unknown command with a number, and
    a command that is not answered; then a frame on which the server crashes. *)
Example C93_case :
  hears [inl (mkSlice (frame_with [[x00; x38; x00; x01]]) []); inr UnexpectedEOF;
         inl (mkSlice (frame_with [[x00; x07; x12; x34]; [x00; xee; x12; x35]]) []); inr EOF; inr EOF]
        [[[x00; x38; x00; x01]]; [[x00; x07; x12; x34]; [x00; xee; x12; x35]]]
  /\ (exists m, conversation true clock0 fresh [[[x00; x38; x00; x01]]; [[x00; x07; x12; x34]; [x00; xee; x12; x35]]]
       = Some (m, map frame_bytes
            [[x00; x02; x00; x01; x00; x38];
             [x00; x08; x12; x34; x69; x70; x6f; x64; x2d; x67; x61; x64; x67; x65; x74; x00];
             [x00; x02; x05; xee]]) /\ numbered m = true)
  /\ conversation true clock0 fresh [[[x00; x07]]; [[x00; x64; x01; x00]]] = None
  /\ ~ In (b2n xee) known_general /\ known_sizes xee = []
  /\ ~ In (b2n x02) known_general /\ ~ In 3 (known_sizes x02).
Proof.
  split; [|split; [|split]].
  - apply hears_frame; [|apply hears_error; [discriminate|apply hears_frame; [|apply hears_eof]]]; apply stream_holds;
      apply framed; repeat (apply Forall_cons; [split; vm_compute; (reflexivity || discriminate || (split; discriminate))|]); apply Forall_nil.
  - eexists. split; vm_compute; reflexivity.
  - vm_compute. reflexivity.
  - split; [vm_compute; intuition discriminate|]. split; [reflexivity|].
    split; [vm_compute; intuition discriminate|cbn; intuition discriminate].
Qed.

(** ** C94 *)

(** The whole server over HID: what arrives in reports, and what leaves in reports. *)
Theorem C94_wire rt clock defs spares reads pss fuel fuel2 :
  usable defs -> arrives defs spares 0 reads pss -> List.length reads < fuel -> List.length reads < fuel2 ->
  let served := processFrames fuel rt std_registry clock DevGeneral_device
               (hid_transport fuel2 defs spares wire_read wire_write) h0 ((reads, []), 0) in
  match conversation rt clock fresh pss with
  | None => served = Some Panic
  | Some (m, fs) =>
      exists st' rest k outs, served = done (st', ((rest, outs), k)) /\ memory_of st' = m /\ departs defs fs outs
  end.
Proof.
  intros U A L L2. pose proof (wire_received rt clock defs spares reads pss 0 U A fuel fuel2 (mkServer false h0) [] sound_init L L2) as R.
  change (memory_of (mkServer false h0)) with fresh in R. cbv zeta. unfold processFrames.
  destruct (conversation rt clock fresh pss) as [[m fs]|]; [|exact R].
  destruct R as (st' & rest & k & outs & _ & M & D & E). exists st', rest, k, outs. auto.
Qed.
Print Assumptions C94_wire.

(** The reports written are determined by the frames. *)
Theorem C94_departs_unique defs fs o o' : departs defs fs o -> departs defs fs o' -> o = o'.
Proof. exact (departs_unique defs fs o o'). Qed.
Print Assumptions C94_departs_unique.

(** An accessory that sends proper frames gets the machine's answers, whatever lies in memory. *)
Theorem C94_accessory rt clock defs spares rss pss fuel fuel2 :
  usable defs -> Forall2 (sends defs) rss pss ->
  let reads := map (fun r => (report_bytes r, None)) (List.concat rss) in
  List.length reads < fuel -> List.length reads < fuel2 ->
  let served := processFrames fuel rt std_registry clock DevGeneral_device
               (hid_transport fuel2 defs spares wire_read wire_write) h0 ((reads, []), 0) in
  match conversation rt clock fresh pss with
  | None => served = Some Panic
  | Some (m, fs) =>
      exists st' rest k outs, served = done (st', ((rest, outs), k)) /\ memory_of st' = m /\ departs defs fs outs
  end.
Proof.
  intros U S reads L L2. exact (C94_wire rt clock defs spares reads pss fuel fuel2 U (sent_arrives defs spares rss pss S 0) L L2).
Qed.
Print Assumptions C94_accessory.

(** The same requests over HID with the full-speed table: three reports come in, and three go out. *)
Example C94_case :
  let r1 := mkReport x09 x00 (frame_with [[x00; x38; x00; x01]]) in
  let f2 := frame_with [[x00; x07; x12; x34]; [x00; xee; x12; x35]] in
  let r2 := mkReport x09 x02 (firstn 5 f2) in
  let r3 := mkReport x09 x01 (skipn 5 f2 ++ [x00; x00]) in
  Forall2 (sends DefaultReportDefs) [[r1]; [r2; r3]] [[[x00; x38; x00; x01]]; [[x00; x07; x12; x34]; [x00; xee; x12; x35]]]
  /\ usable DefaultReportDefs
  /\ exists st' k outs,
       processFrames 4 true std_registry clock0 DevGeneral_device
         (hid_transport 4 DefaultReportDefs (fun _ => []) wire_read wire_write) h0
         ((map (fun r => (report_bytes r, None)) [r1; r2; r3], []), 0) = done (st', (([], outs), k))
       /\ map (firstn 9) outs
          = [[x01; x00; x55; x06; x00; x02; x00; x01; x00]; [x03; x00; x55; x10; x00; x08; x12; x34; x69];
             [x01; x00; x55; x04; x00; x02; x05; xee; x07]].
Proof.
  cbv zeta. split; [|split; [exact default_usable|]].
  - assert (K : forall lc data, known DefaultReportDefs (mkReport x09 lc data) (mkDef 9 63 0)).
    { intros lc data. exists (firstn 8 DefaultReportDefs), []. split; [reflexivity|]. split; [reflexivity|].
      repeat (apply Forall_cons; [discriminate|]). apply Forall_nil. }
    assert (LV : forall lc data, live DefaultReportDefs (mkReport x09 lc data)).
    { intros lc data. exists (mkDef 9 63 0). split; [apply K|discriminate]. }
    assert (CT : forall lc data, ignored (mkReport x09 lc data) = false -> List.length data <= 62 ->
                 contributes DefaultReportDefs (mkReport x09 lc data) data).
    { intros lc data I L. exists (mkDef 9 63 0). split; [apply K|]. split; [discriminate|]. rewrite I. cbn [rep_Data].
      symmetry. now apply firstn_all2. }
    apply Forall2_cons; [|apply Forall2_cons; [|apply Forall2_nil]].
    + exists [], (mkReport x09 x00 (frame_with [[x00; x38; x00; x01]])), (frame_with [[x00; x38; x00; x01]]).
      split; [reflexivity|]. split; [split; apply Forall_nil|]. split; [apply LV|]. split; [left; reflexivity|].
      split; [apply Forall_cons; [vm_compute; lia|apply Forall_nil]|]. split.
      * apply frame_started with [] (mkReport x09 x00 (frame_with [[x00; x38; x00; x01]])) [] [frame_with [[x00; x38; x00; x01]]];
          [reflexivity|left; reflexivity|apply Forall_nil| |reflexivity].
        apply Forall2_cons; [|apply Forall2_nil]. apply CT; [reflexivity|vm_compute; lia].
      * apply framed. apply Forall_cons; [split; vm_compute; (reflexivity || discriminate || (split; discriminate))|apply Forall_nil].
    + set (f2 := frame_with [[x00; x07; x12; x34]; [x00; xee; x12; x35]]).
      exists [mkReport x09 x02 (firstn 5 f2)], (mkReport x09 x01 (skipn 5 f2 ++ [x00; x00])), (f2 ++ [x00; x00]).
      split; [reflexivity|]. split.
      { split; (apply Forall_cons; [|apply Forall_nil]); [apply LV|]. intros [H|H]; discriminate H. }
      split; [apply LV|]. split; [right; reflexivity|].
      split; [apply Forall_cons; [vm_compute; lia|apply Forall_cons; [vm_compute; lia|apply Forall_nil]]|]. split.
      * apply frame_started with [] (mkReport x09 x02 (firstn 5 f2)) [mkReport x09 x01 (skipn 5 f2 ++ [x00; x00])]
          [firstn 5 f2; skipn 5 f2 ++ [x00; x00]];
          [reflexivity|right; reflexivity| | |reflexivity].
        { apply Forall_cons; [|apply Forall_nil]. intros [H|H]; discriminate H. }
        apply Forall2_cons; [|apply Forall2_cons; [|apply Forall2_nil]]; (apply CT; [reflexivity|vm_compute; lia]).
      * apply stream_more. apply framed.
        repeat (apply Forall_cons; [split; vm_compute; (reflexivity || discriminate || (split; discriminate))|]). apply Forall_nil.
  - do 3 eexists. split; vm_compute; reflexivity.
Qed.
