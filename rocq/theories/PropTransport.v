(** Property C118: any transport under the server. *)
From Coq Require Import ZifyBool ZifyNat ZifyN Lia.
From Verif Require Import Base BaseFacts GoTypes Types Payload Lingo Command SpecPayload SpecCommand Handlers SpecHandlers HandlersThms
  SpecProtocol Packet SpecPacket PacketThms Hid SpecHid HidThms Server SpecServer ServerFacts ServerThms SpecWire ProtocolProps PropProtocol SpecRetry RetryThms PropRetry SpecRenew PropRenew
  SpecPlug SpecTransport TransportThms.
#[local] Opaque std_registry.

(** The transport is seen through its frames only: two transports, however they work inside, that deliver frames
    with the same packets and end together lead to the same run of any device - the same calls of its methods, the same
    state at the end, the same frames handed to the transport - whatever their writes return. *)
Theorem C118_same {S W1 W2} rt clock (dev : DeviceGeneral S) (R : W1 -> W2 -> Prop) t1 t2 h w1 w2 fuel :
  carry_alike R t1 t2 -> R w1 w2 ->
  compare (processFrames fuel rt std_registry clock dev t1 h w1) (processFrames fuel rt std_registry clock dev t2 h w2)
    (fun e1 e2 => fst e1 = fst e2 /\ R (snd e1) (snd e2)).
Proof. intros CA H. exact (server_carried R t1 t2 CA rt clock dev fuel (mkServer false h) w1 w2 H). Qed.
Print Assumptions C118_same.

Lemma reporting_alike {W} (tp : transport W) verdict : carry_alike eq (reporting verdict tp) tp.
Proof.
  constructor.
  - intros w1 w2 <-. cbn [reporting tp_ReadFrame]. destruct (tp_ReadFrame tp w1) as [[[w' r]|]|]; cbn [compare fst snd]; auto.
    split; [reflexivity|]. destruct r; [left; reflexivity|split; intros X; exact X].
  - intros w1 w2 f <-. cbn [reporting tp_WriteFrame]. destruct (tp_WriteFrame tp w1 f) as [[[w' r]|]|]; cbn; auto.
Qed.

(** Finding: the server does not see that its replies cannot be sent.  Whatever the writes return - an error each
    time, or now and then - nothing changes: it goes on reading, and asks and tells the device the same things. *)
Theorem C118_write_errors_refuted {S W} rt clock (dev : DeviceGeneral S) (tp : transport W) verdict h w fuel :
  processFrames fuel rt std_registry clock dev (reporting verdict tp) h w = processFrames fuel rt std_registry clock dev tp h w.
Proof.
  pose proof (reporting_alike tp verdict) as CA.
  pose proof (C118_same rt clock dev eq _ _ h w w fuel CA eq_refl) as K. unfold compare in K.
  destruct (processFrames fuel rt std_registry clock dev (reporting verdict tp) h w) as [[[a b]|]|],
    (processFrames fuel rt std_registry clock dev tp h w) as [[[c d]|]|]; try contradiction; try reflexivity.
  cbn [fst snd] in K. destruct K as [-> ->]. reflexivity.
Qed.
Print Assumptions C118_write_errors_refuted.

(** Over HID, the table of reports, the cutting of frames into reports, disturbances on the wire and what is left in the
    memory behind a frame do not matter: wherever the same packets arrive, any device ends in the same state with the same
    log, and the same frames are sent, each cut by the table in use. *)
Theorem C118_table {S} rt clock (dev : DeviceGeneral S) h defs1 defs2 spares1 spares2 reads1 reads2 pss fuel :
  usable defs1 -> usable defs2 -> arrives defs1 spares1 0 reads1 pss -> arrives defs2 spares2 0 reads2 pss ->
  List.length reads1 < fuel -> List.length reads2 < fuel ->
  let ran defs spares reads := processFrames fuel rt std_registry clock dev (hid_transport fuel defs spares wire_read wire_write) h ((reads, []), 0) in
  compare (ran defs1 spares1 reads1) (ran defs2 spares2 reads2) (fun e1 e2 =>
    let '(st1, ((_, outs1), _)) := e1 in let '(st2, ((_, outs2), _)) := e2 in
    st1 = st2 /\ exists fs, departs defs1 fs outs1 /\ departs defs2 fs outs2).
Proof.
  intros U1 U2 A1 A2 L1 L2. cbv zeta.
  pose proof (server_wired rt clock dev defs1 spares1 reads1 pss 0 U1 A1 fuel fuel (mkServer false h) [] L1 L1) as K1.
  pose proof (server_wired rt clock dev defs2 spares2 reads2 pss 0 U2 A2 fuel fuel (mkServer false h) [] L2 L2) as K2.
  unfold processFrames. destruct (talk_all rt clock dev (mkServer false h) pss) as [[st fs]|].
  - destruct K1 as (r1 & k1 & o1 & D1 & ->), K2 as (r2 & k2 & o2 & D2 & ->). split; [reflexivity|]. exists fs. split; assumption.
  - rewrite K1, K2. exact I.
Qed.
Print Assumptions C118_table.

(** A session of two requests, Identify and the device's name, sent in the reports of the default table, and in those
    of the legacy table behind a disturbance (a report of unknown id): the writes differ, the frames do
    not. *)
Definition asked118 : list bytes := [[x00; x01; x00]; [x00; x07]].
Definition legacy118 (p : bytes) : list Report := [mkReport x13 x00 (frame_with [p])].
Definition reads118 : list raw_read :=
  map (fun r => (report_bytes r, None)) ([mkReport xff x00 [x00]] ++ List.concat (map legacy118 asked118)).

Lemma legacy118_sent p : writable p -> List.length (frame_with [p]) <= 94 -> sends LegacyReportDefs (legacy118 p) [p].
Proof.
  intros W L. assert (K : known LegacyReportDefs (mkReport x13 x00 (frame_with [p])) (mkDef 19 95 1)).
  { exists (firstn 18 LegacyReportDefs), (skipn 19 LegacyReportDefs). split; [reflexivity|]. split; [reflexivity|]. repeat (apply Forall_cons; [discriminate|]). apply Forall_nil. }
  exists [], (mkReport x13 x00 (frame_with [p])), (frame_with [p]).
  split; [reflexivity|]. split; [split; apply Forall_nil|]. split; [exists (mkDef 19 95 1); split; [exact K|discriminate]|]. split; [left; reflexivity|].
  split; [apply Forall_cons; [cbn [rep_Data]; split; [cbn; lia|lia]|apply Forall_nil]|]. split.
  - apply frame_started with [] (mkReport x13 x00 (frame_with [p])) [] [frame_with [p]]; [reflexivity|left; reflexivity|apply Forall_nil| |symmetry; apply app_nil_r].
    apply Forall2_cons; [|apply Forall2_nil]. exists (mkDef 19 95 1). split; [exact K|]. split; [discriminate|]. symmetry. now apply firstn_all2.
  - apply framed. apply Forall_cons; [exact W|apply Forall_nil].
Qed.

Example C118_case :
  usable DefaultReportDefs /\ usable LegacyReportDefs
  /\ arrives DefaultReportDefs (fun _ => []) 0 (reads_of (map request_of asked118)) (map (fun p => [p]) asked118)
  /\ arrives LegacyReportDefs (fun _ => [x55; x02]) 0 reads118 (map (fun p => [p]) asked118)
  /\ (exists st w1 w2,
        processFrames 9 true std_registry clock_ticking DevGeneral_device (hid_transport 9 DefaultReportDefs (fun _ => []) wire_read wire_write) h0 ((reads_of (map request_of asked118), []), 0) = done (st, w1)
        /\ processFrames 9 true std_registry clock_ticking DevGeneral_device (hid_transport 9 LegacyReportDefs (fun _ => [x55; x02]) wire_read wire_write) h0 ((reads118, []), 0) = done (st, w2)
        /\ List.length (snd (fst w1)) = 2 /\ List.length (snd (fst w2)) = 2 /\ snd (fst w1) <> snd (fst w2))
  /\ carry_alike eq (reporting (fun _ _ => Some (ErrMsg "unplugged")) (hid_transport 9 LegacyReportDefs (fun _ => []) wire_read wire_write))
       (hid_transport 9 LegacyReportDefs (fun _ => []) wire_read wire_write).
Proof.
  split; [exact default_usable|]. split; [exact legacy_usable|]. split; [|split; [|split]].
  - apply (sent_arrives DefaultReportDefs (fun _ => []) (map request_of asked118)).
    repeat (apply Forall2_cons; [apply request_sent; [split; vm_compute; (reflexivity || discriminate || (split; discriminate))|vm_compute; lia]|]). apply Forall2_nil.
  - apply (arrives_error LegacyReportDefs (fun _ => [x55; x02]) 0 [(report_bytes (mkReport xff x00 [x00]), None)] _ [] (inl (mkReport xff x00 [x00]))); [reflexivity|split; constructor| |].
    + cbv beta iota. repeat (apply Forall_cons; [discriminate|]). apply Forall_nil.
    + apply (sent_arrives LegacyReportDefs (fun _ => [x55; x02]) (map legacy118 asked118)).
      repeat (apply Forall2_cons; [apply legacy118_sent; [split; vm_compute; (reflexivity || discriminate || (split; discriminate))|vm_compute; lia]|]). apply Forall2_nil.
  - do 3 eexists. split; [vm_compute; reflexivity|]. split; [vm_compute; reflexivity|]. split; [reflexivity|]. split; [reflexivity|discriminate].
  - apply reporting_alike.
Qed.
