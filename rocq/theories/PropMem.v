(** Properties C73-C76: how long the slices handed out by the library stay valid. *)
From Verif Require Import Base GoTypes Types Payload Lingo Command Handlers Packet Hid Server SessionThms
  Mem SpecMem MemFacts MemThms MemServer.

(** ** Examples *)

Definition clock0 : nat -> datetime := fun _ => (2024, 5, 17, 12, 30)%N.
Definition h0 : hstate DevGeneral := mkH DevGeneral_init [] 0 0 [].

(** One report (id 9 of the default table) per packet. *)
Definition report_of (p : bytes) : bytes := x09 :: x00 :: fst (WritePacket [] p).
Definition read_next (m : mem) (d : list raw_read) : io (mem * list raw_read * (ref + goerr)) :=
  ReadFrame_mem 3 DefaultReportDefs go_growth list_read m d.
Definition mem_after (x : io (mem * list raw_read * (ref + goerr))) : mem :=
  match x with Some (Ret (m, _, _)) => m | _ => new_mem end.
Definition frame_of (x : io (mem * list raw_read * (ref + goerr))) : ref :=
  match x with Some (Ret (_, _, inl s)) => s | _ => nilref end.
Definition packet_of (x : outcome (ref * ref * option goerr)) : ref :=
  match x with Ret (_, p, _) => p | Panic => nilref end.
Definition heap_of (x : outcome (heap * (bool * kept_command * option goerr))) : heap :=
  match x with Ret (h, _) => h | Panic => [] end.
Definition command_of (x : outcome (heap * (bool * kept_command * option goerr))) : kept_command :=
  match x with Ret (_, (_, c, _)) => c | Panic => mkKC 0 None None end.
Definition payload_of (c : kept_command) : kept_payload :=
  match kc_payload c with Some p => p | None => KTokens [] end.

Lemma read_reachable m d m' d' r : reachable m -> read_next m d = done (m', d', r) -> reachable m'.
Proof. intros R E. exact (steps_more _ _ Reading m m' R I (step_read _ _ _ _ _ _ _ _ _ E)). Qed.

(** ** C73 *)

(** Reading a frame through the buffers gives what reading it by value gives ([ReadFrame_dev], the
    model of the other properties): the same frames, errors, crashes; and the frame is a slice of
    the decoder's buffer. *)
Theorem C73_same_frame {D} fuel defs pol (rd : D -> io (D * raw_read)) m d :
  reachable m ->
  match ReadFrame_dev fuel defs rd [] d with
  | None => ReadFrame_mem fuel defs pol rd m d = None
  | Some Panic => ReadFrame_mem fuel defs pol rd m d = Some Panic
  | Some (Ret (d', inr e)) => exists m', ReadFrame_mem fuel defs pol rd m d = done (m', d', inr e)
  | Some (Ret (d', inl f)) =>
      exists m' s, ReadFrame_mem fuel defs pol rd m d = done (m', d', inl s)
        /\ load (m_heap m') s = f /\ in_frame m' s
  end.
Proof.
  intros R. pose proof (ReadFrame_mem_ok fuel defs pol rd m d (reachable_ok m R)) as F. unfold frame_result in F.
  destruct (ReadFrame_dev fuel defs rd [] d) as [[[d' [f|e]]|]|]; [| |exact F|exact F];
    destruct F as (m' & [s|e'] & E & _ & _ & X); try contradiction.
  - destruct X as [-> L]. exists m', (buf_Bytes (m_buf m')). split; [exact E|]. split; [exact L|].
    split; [reflexivity|]. cbn. lia.
  - subst e'. exists m'. exact E.
Qed.
Print Assumptions C73_same_frame.

(** The same for packets: their payloads are slices of the frame. *)
Theorem C73_same_packets h s : in_array h s ->
  match ReadPacket (as_slice h s) with
  | Panic => ReadPacket_mem h s = Panic
  | Ret (rest, p, err) =>
      exists rest' p', ReadPacket_mem h s = Ret (rest', p', err) /\ as_slice h rest' = rest /\ load h p' = p
        /\ (err = None -> rf_arr p' = rf_arr s)
  end.
Proof.
  intros I. pose proof (ReadPacket_mem_ok h s I) as H.
  destruct (ReadPacket_mem h s) as [[[rest' p'] err']|], (ReadPacket (as_slice h s)) as [[[rest p] err]|];
    cbn [same_result] in H; try contradiction; [|reflexivity].
  destruct H as (H1 & H2 & -> & _ & _ & H3). exists rest', p'. split; [reflexivity|]. split; [exact H1|]. split; [exact H2|].
  intros E. exact (proj1 (H3 E)).
Qed.
Print Assumptions C73_same_packets.

(** A frame, and any slice of it, keeps its bytes until the next ReadFrame, whatever packets are
    decoded and certificates received meanwhile. *)
Theorem C73_valid_until_next m m' s :
  reachable m -> in_frame m s -> steps no_reading m m' -> load (m_heap m') s = load (m_heap m) s.
Proof. intros R. exact (frame_lasts m m' s (reachable_ok m R)). Qed.
Print Assumptions C73_valid_until_next.

(** Finding: it does not keep them any longer.  The next frame is written over it, when that comes
    in one report and fits the buffer; a frame that does not fit leaves it alone. *)
Theorem C73_overwritten {D} fuel defs pol (rd : D -> io (D * raw_read)) m d d' def g :
  reachable m -> Find defs (Z.of_N (b2n (z2b (def_ID def)))) = inl def ->
  rd d = done (d', (one_report def g, None)) ->
  g <> [] -> List.length g + 2 <= maxRawSize -> (Z.of_nat (List.length g) <= MaxPayload def)%Z ->
  exists m' s', ReadFrame_mem (S fuel) defs pol rd m d = done (m', d', inl s')
    /\ load (m_heap m') s' = g
    /\ (List.length g <= List.length (array (m_heap m) (bf_arr (m_buf m))) ->
          forall s, in_frame m s -> forall i, i < rf_len s ->
               nth i (load (m_heap m') s) x00
               = if rf_off s + i <? List.length g then nth (rf_off s + i) g x00 else nth i (load (m_heap m) s) x00)
    /\ (List.length (array (m_heap m) (bf_arr (m_buf m))) < List.length g ->
          forall s, in_frame m s -> load (m_heap m') s = load (m_heap m) s).
Proof.
  intros R F E N L P.
  destruct (read_overwrites fuel defs pol rd m d d' def g (reachable_ok m R) F E N L P) as (m' & s' & H1 & H2 & H3 & H4).
  exists m', s'. split; [exact H1|]. split; [exact H2|]. split; [intros X; exact (proj2 (H3 X))|exact H4].
Qed.
Print Assumptions C73_overwritten.

Definition two_frames : list raw_read := map good_data [report_of [x00; x07]; report_of [x00; x09]].
Theorem C73_valid_for_ever_refuted :
  exists (d : list raw_read) m1 d1 s m2 d2 s2,
    read_next new_mem d = done (m1, d1, inl s) /\ read_next m1 d1 = done (m2, d2, inl s2)
    /\ load (m_heap m1) s = [x55; x02; x00; x07; xf7]
    /\ load (m_heap m2) s = [x55; x02; x00; x09; xf5].
Proof.
  pose (r1 := read_next new_mem two_frames). pose (r2 := read_next (mem_after r1) (map good_data [report_of [x00; x09]])).
  exists two_frames, (mem_after r1), (map good_data [report_of [x00; x09]]), (frame_of r1), (mem_after r2), [], (frame_of r2).
  vm_compute. auto.
Qed.
Print Assumptions C73_valid_for_ever_refuted.

(** The data of a report read from a device lies in the reader's buffer, which the next report
    overwrites.  The decoder copies it first. *)
Theorem C73_report_data h raw r1 r2 h1 p h2 x :
  raw < List.length h -> List.length (array h raw) = maxRawSize ->
  ReadReport_mem h raw r1 = (h1, inl p) -> ReadReport_mem h1 raw r2 = (h2, x) ->
  forall i, i < rf_len (rr_Data p) ->
    nth i (load h2 (rr_Data p)) x00
    = let got := firstn maxRawSize (fst r2) in
      if 2 + i <? List.length got then nth (2 + i) got x00 else nth i (load h1 (rr_Data p)) x00.
Proof. intros H1 H2 H3 H4. exact (report_overwritten h raw r1 r2 h1 p h2 x H1 H2 H3 H4). Qed.
Print Assumptions C73_report_data.

Example C73_case :
  reachable (mem_after (read_next new_mem two_frames))
  /\ in_frame (mem_after (read_next new_mem two_frames)) (frame_of (read_next new_mem two_frames))
  /\ load (m_heap (mem_after (read_next new_mem two_frames))) (frame_of (read_next new_mem two_frames))
     = [x55; x02; x00; x07; xf7].
Proof.
  split; [|split].
  - apply (read_reachable new_mem two_frames _ (map good_data [report_of [x00; x09]])
             (inl (frame_of (read_next new_mem two_frames)))); [apply steps_none|vm_compute; reflexivity].
  - vm_compute. auto.
  - vm_compute. reflexivity.
Qed.

(** ** C74 *)

(** Decoding a packet in memory gives what decoding its bytes gives, for every packet. *)
Theorem C74_decoded rt reg mode h pkt :
  in_array h pkt -> rf_arr pkt < List.length h ->
  match UnmarshalCmd rt reg mode (load h pkt) with
  | Panic => UnmarshalCmd_mem rt reg mode h pkt = Panic
  | Ret (mode', c, err) =>
      exists h' kc, UnmarshalCmd_mem rt reg mode h pkt = Ret (h', (mode', kc, err)) /\ deref_command h' kc = c
  end.
Proof.
  intros I R. pose proof (UnmarshalCmd_mem_ok rt reg mode h pkt I R) as O.
  destruct (UnmarshalCmd rt reg mode (load h pkt)) as [[[e c] err]|]; [|exact O].
  destruct O as (h' & kc & E & _ & D & _). exists h', kc. auto.
Qed.
Print Assumptions C74_decoded.

(** Until the next frame is read, a decoded command stays as it was. *)
Theorem C74_valid_until_next rt reg mode m pkt h' mode' kc err m2 :
  reachable m -> in_frame m pkt ->
  UnmarshalCmd_mem rt reg mode (m_heap m) pkt = Ret (h', (mode', kc, err)) ->
  steps no_reading (mkMem h' (m_buf m) (m_raw m) (m_cert m)) m2 ->
  deref_command (m_heap m2) kc = deref_command h' kc.
Proof. exact (payload_until_read rt reg mode m pkt h' mode' kc err m2). Qed.
Print Assumptions C74_valid_until_next.

(** Whatever happens later, only the bytes of protocol strings and of unknown payloads can change:
    all other payloads and tokens, and the number and lengths of these, stay as they were. *)
Theorem C74_rest_is_kept rt reg mode m pkt h' mode' kc err p m2 :
  reachable m -> rf_arr pkt < List.length (m_heap m) -> in_array (m_heap m) pkt ->
  UnmarshalCmd_mem rt reg mode (m_heap m) pkt = Ret (h', (mode', kc, err)) ->
  kc_payload kc = Some p ->
  steps anything (mkMem h' (m_buf m) (m_raw m) (m_cert m)) m2 ->
  same_but_slices (deref_payload h' p) (deref_payload (m_heap m2) p).
Proof. exact (kept_payloads rt reg mode m pkt h' mode' kc err p m2). Qed.
Print Assumptions C74_rest_is_kept.

(** Finding: a protocol token that the device keeps (as the tool's own device does, see C32) reads
    differently once the next frame has arrived. *)
Definition token_packet (s : bytes) : bytes := [x00; x39; x01; x06; x00; x04; x01] ++ s.
Definition token_frames : list raw_read :=
  map good_data [report_of (token_packet [x61; x62; x63]); report_of (token_packet [x78; x79; x7a])].
Theorem C74_tokens_kept_refuted :
  exists m pkt h' kc p m2,
    reachable m /\ in_frame m pkt
    /\ UnmarshalCmd_mem true std_registry false (m_heap m) pkt = Ret (h', (false, kc, None))
    /\ kc_payload kc = Some p
    /\ step Reading (mkMem h' (m_buf m) (m_raw m) (m_cert m)) m2
    /\ deref_payload h' p = PTokens [mkTV 0 4 (TokEAProtocol 1 [x61; x62; x63])]
    /\ deref_payload (m_heap m2) p = PTokens [mkTV 0 4 (TokEAProtocol 1 [x78; x79; x7a])].
Proof.
  pose (r1 := read_next new_mem token_frames). pose (m1 := mem_after r1).
  pose (pkt := packet_of (ReadPacket_mem (m_heap m1) (frame_of r1))).
  pose (u := UnmarshalCmd_mem true std_registry false (m_heap m1) pkt).
  pose (m1' := mkMem (heap_of u) (m_buf m1) (m_raw m1) (m_cert m1)).
  pose (r2 := read_next m1' (map good_data [report_of (token_packet [x78; x79; x7a])])).
  exists m1, pkt, (heap_of u), (command_of u), (payload_of (command_of u)), (mem_after r2).
  split; [|split; [|split; [|split; [|split; [|split]]]]].
  - apply (read_reachable new_mem token_frames _ (map good_data [report_of (token_packet [x78; x79; x7a])]) (inl (frame_of r1)));
      [apply steps_none|vm_compute; reflexivity].
  - vm_compute. split; [reflexivity|lia].
  - vm_compute. reflexivity.
  - vm_compute. reflexivity.
  - apply (step_read 3 DefaultReportDefs go_growth list_read (map good_data [report_of (token_packet [x78; x79; x7a])]) m1' (mem_after r2) [] (inl (frame_of r2))).
    vm_compute. reflexivity.
  - vm_compute. reflexivity.
  - vm_compute. reflexivity.
Qed.
Print Assumptions C74_tokens_kept_refuted.

(** The payload of an unknown command changes in the same way. *)
Definition unknown_frames : list raw_read :=
  map good_data [report_of [x00; xff; x61; x62; x63]; report_of [x00; xff; x78; x79; x7a]].
Theorem C74_unknown_kept_refuted :
  exists m pkt h' kc p m2 e,
    reachable m /\ in_frame m pkt
    /\ UnmarshalCmd_mem true std_registry false (m_heap m) pkt = Ret (h', (false, kc, Some e))
    /\ kc_payload kc = Some p
    /\ step Reading (mkMem h' (m_buf m) (m_raw m) (m_cert m)) m2
    /\ deref_payload h' p = PUnknown [x61; x62; x63]
    /\ deref_payload (m_heap m2) p = PUnknown [x78; x79; x7a].
Proof.
  pose (r1 := read_next new_mem unknown_frames). pose (m1 := mem_after r1).
  pose (pkt := packet_of (ReadPacket_mem (m_heap m1) (frame_of r1))).
  pose (u := UnmarshalCmd_mem true std_registry false (m_heap m1) pkt).
  pose (m1' := mkMem (heap_of u) (m_buf m1) (m_raw m1) (m_cert m1)).
  pose (r2 := read_next m1' (map good_data [report_of [x00; xff; x78; x79; x7a]])).
  pose (e := match u with Ret (_, (_, _, Some e)) => e | _ => EOF end).
  exists m1, pkt, (heap_of u), (command_of u), (payload_of (command_of u)), (mem_after r2), e.
  split; [|split; [|split; [|split; [|split; [|split]]]]].
  - apply (read_reachable new_mem unknown_frames _ (map good_data [report_of [x00; xff; x78; x79; x7a]]) (inl (frame_of r1)));
      [apply steps_none|vm_compute; reflexivity].
  - vm_compute. split; [reflexivity|lia].
  - vm_compute. reflexivity.
  - vm_compute. reflexivity.
  - apply (step_read 3 DefaultReportDefs go_growth list_read (map good_data [report_of [x00; xff; x78; x79; x7a]]) m1' (mem_after r2) [] (inl (frame_of r2))).
    vm_compute. reflexivity.
  - vm_compute. reflexivity.
  - vm_compute. reflexivity.
Qed.
Print Assumptions C74_unknown_kept_refuted.

(** A preference token, the bytes of which are copied, next to it. *)
Example C74_case :
  let r1 := read_next new_mem (map good_data [report_of [x00; x39; x02; x06; x00; x04; x01; x61; x62; x63; x03; x00; x09; x42];
                                              report_of [x00; x07; x00; x00; x00; x00; x00; x00; x00; x00; x00; x00; x00; x00]]) in
  let m1 := mem_after r1 in
  let u := UnmarshalCmd_mem false std_registry false (m_heap m1) (packet_of (ReadPacket_mem (m_heap m1) (frame_of r1))) in
  let m1' := mkMem (heap_of u) (m_buf m1) (m_raw m1) (m_cert m1) in
  let r2 := read_next m1' (map good_data [report_of [x00; x07; x00; x00; x00; x00; x00; x00; x00; x00; x00; x00; x00; x00]]) in
  deref_payload (heap_of u) (payload_of (command_of u))
  = PTokens [mkTV 0 4 (TokEAProtocol 1 [x61; x62; x63]); mkTV 0 9 (TokRaw [x42])]
  /\ deref_payload (m_heap (mem_after r2)) (payload_of (command_of u))
     = PTokens [mkTV 0 4 (TokEAProtocol 1 [x00; x00; x00]); mkTV 0 9 (TokRaw [x42])].
Proof. vm_compute. auto. Qed.

(** ** C75 *)

(** The server on the transport with its real buffers behaves as on the transport of the other
    properties, for some bytes behind the frames: what holds for all of them holds for it. *)
Theorem C75_covered {S D} rt reg clock (dev : DeviceGeneral S) f defs pol (rd : D -> io (D * raw_read)) wd fuel h m d :
  reachable m ->
  exists spares, same_end (fun w v => snd w = fst v)
    (processFrames fuel rt reg clock dev (mem_transport f defs pol rd wd) h (m, d))
    (processFrames fuel rt reg clock dev (hid_transport f defs spares rd wd) h (d, 0)).
Proof. intros R. exact (processFrames_sim rt reg clock dev f defs pol rd wd fuel h m d (reachable_ok m R)). Qed.
Print Assumptions C75_covered.

(** Behind a frame that comes in one report lies what earlier frames left there. *)
Theorem C75_stale {D} fuel defs pol (rd : D -> io (D * raw_read)) m d d' def g :
  reachable m -> Find defs (Z.of_N (b2n (z2b (def_ID def)))) = inl def ->
  rd d = done (d', (one_report def g, None)) ->
  g <> [] -> List.length g + 2 <= maxRawSize -> (Z.of_nat (List.length g) <= MaxPayload def)%Z ->
  List.length g <= List.length (array (m_heap m) (bf_arr (m_buf m))) ->
  exists m' s', ReadFrame_mem (Datatypes.S fuel) defs pol rd m d = done (m', d', inl s')
    /\ as_slice (m_heap m') s' = mkSlice g (skipn (List.length g) (array (m_heap m) (bf_arr (m_buf m)))).
Proof.
  intros R F E N L P Fit.
  destruct (read_overwrites fuel defs pol rd m d d' def g (reachable_ok m R) F E N L P) as (m' & s' & H1 & H2 & H3 & _).
  exists m', s'. split; [exact H1|]. unfold as_slice. rewrite H2, (proj1 (H3 Fit)). reflexivity.
Qed.
Print Assumptions C75_stale.

(** Finding: whether a frame crashes the server depends on the frames before it.  Each of two
    frames is harmless alone; after the first, the second ends the process. *)
Definition server_on (rt : bool) (reports : list bytes) : io (server DevGeneral * (mem * list raw_read)) :=
  processFrames 5 rt std_registry clock0 DevGeneral_device
    (mem_transport 5 DefaultReportDefs go_growth list_read discard) h0 (new_mem, map good_data reports).
Definition ended {A} (x : io A) : bool := match x with Some (Ret _) => true | _ => false end.
Theorem C75_frames_are_independent_refuted :
  exists f1 f2, forall rt,
    ended (server_on rt [f1]) = true /\ ended (server_on rt [f2]) = true /\ ended (server_on rt [f2; f1]) = true
    /\ server_on rt [f1; f2] = Some Panic.
Proof.
  exists (report_of [x00; x05; xf8; x00; x00; x00]), [x09; x00; x55; x05; x01; x02].
  intros []; vm_compute; auto.
Qed.
Print Assumptions C75_frames_are_independent_refuted.

Example C75_case :
  let r1 := read_next new_mem two_frames in
  let r2 := read_next (mem_after r1) (map good_data [[x09; x00; x01; x02]]) in
  as_slice (m_heap (mem_after r2)) (frame_of r2)
  = mkSlice [x01; x02] ([x00; x07; xf7] ++ repeat x00 59).
Proof. vm_compute. reflexivity. Qed.

(** ** C76 *)

(** The certificate buffer holds the sections since the last section 0. *)
Theorem C76_certificate pol m section data :
  reachable m ->
  let m' := cert_section pol m section data in
  load (m_heap m') (cert_given m')
  = (if (section =? 0)%N then [] else load (m_heap m) (cert_given m)) ++ data.
Proof. intros R. exact (cert_section_value pol m section data (reachable_ok m R)). Qed.
Print Assumptions C76_certificate.

(** The certificate given to the device keeps its bytes until the first section of another one
    arrives, whatever frames and further sections come in between. *)
Theorem C76_valid_until_next m m' :
  reachable m -> steps no_new_certificate m m' ->
  load (m_heap m') (cert_given m) = load (m_heap m) (cert_given m).
Proof. intros R. exact (certificate_lasts m m' (reachable_ok m R)). Qed.
Print Assumptions C76_valid_until_next.

(** Finding: then it is overwritten. *)
Theorem C76_valid_for_ever_refuted :
  exists m m', reachable m /\ step (Certifying 0) m m'
    /\ load (m_heap m) (cert_given m) = [x01; x02; x03; x04] /\ load (m_heap m') (cert_given m) = [x0a; x0b; x03; x04].
Proof.
  exists (cert_section go_growth (cert_section go_growth new_mem 0 [x01; x02]) 1 [x03; x04]).
  exists (cert_section go_growth (cert_section go_growth (cert_section go_growth new_mem 0 [x01; x02]) 1 [x03; x04]) 0 [x0a; x0b]).
  split; [|split; [|split]].
  - apply (steps_more _ _ (Certifying 1) (cert_section go_growth new_mem 0 [x01; x02])); [|exact I|apply step_cert].
    apply (steps_more _ _ (Certifying 0) new_mem); [apply steps_none|exact I|apply step_cert].
  - apply step_cert.
  - vm_compute. reflexivity.
  - vm_compute. reflexivity.
Qed.
Print Assumptions C76_valid_for_ever_refuted.

Example C76_case :
  let m := cert_section go_growth new_mem 0 [x01; x02] in
  reachable m /\ steps no_new_certificate m (cert_section go_growth m 1 [x03])
  /\ load (m_heap m) (cert_given m) = [x01; x02].
Proof.
  split; [|split].
  - apply (steps_more _ _ (Certifying 0) new_mem); [apply steps_none|exact I|apply step_cert].
  - apply (steps_more _ _ (Certifying 1) (cert_section go_growth new_mem 0 [x01; x02]));
      [apply steps_none|discriminate|apply step_cert].
  - vm_compute. reflexivity.
Qed.
