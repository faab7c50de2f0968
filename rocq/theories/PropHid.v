(** Properties C38-C44: the HID transport. *)
From Verif Require Import Base Packet SpecPacket ClientPacket Hid SpecHid HidFacts HidThms HidPacketThms.
From Coq Require Import Lia.

(** ** C38 *)

(** Frames written in a row with one encoder are read back in order by any decoder (whatever its
    buffer held), each followed by less padding than one report, and the reports that follow are
    left unread. *)
Theorem C38_frames_roundtrip defs frames :
  usable defs -> Forall (fun f => f <> []) frames ->
  exists reports,
    write_frames defs [] frames = Some (Ret (reports, map (fun _ => None) frames))
    /\ forall buf rest, exists got,
         Forall2 (padded defs) frames got
         /\ read_frames (List.length frames) defs buf (map inl reports ++ rest) = Ret (rest, map inl got).
Proof. intros U F. exact (frames_roundtrip defs U frames [] F). Qed.
Print Assumptions C38_frames_roundtrip.

Theorem C38_tables_usable : usable DefaultReportDefs /\ usable LegacyReportDefs.
Proof. split; [exact default_usable|exact legacy_usable]. Qed.
Print Assumptions C38_tables_usable.

Example C38_case :
  exists reports,
    write_frames DefaultReportDefs [] [repeat x55 70; [x01]] = Some (Ret (reports, [None; None]))
    /\ map rep_LinkControl reports = [x02; x01; x00]
    /\ exists rest, read_frames 2 DefaultReportDefs [] (map inl reports)
         = Ret (rest, [inl (repeat x55 70 ++ repeat x00 3); inl (x01 :: repeat x00 10)]).
Proof. eexists. split; [reflexivity|]. split; [reflexivity|]. eexists. vm_compute. reflexivity. Qed.

(** ** C39 *)

(** The reports of a frame: their link controls, their ids and sizes, and their content. *)
Theorem C39_report_shape defs f data :
  last_of defs 0 f -> (2 <= def_Len f)%Z -> data <> [] ->
  exists reports,
    WriteFrame (List.length data) defs recorder [] data = Some (Ret (reports, None))
    /\ (map rep_LinkControl reports = [x00]
        \/ exists k, map rep_LinkControl reports = x02 :: repeat x03 k ++ [x01])
    /\ Forall (fun r => exists d, In d defs /\ def_Dir d = 0%N /\ rep_ID r = id_byte d
                          /\ Z.of_nat (List.length (rep_Data r)) = (def_Len d - 1)%Z) reports
    /\ padded defs data (List.concat (map rep_Data reports)).
Proof.
  intros LO L NE. destruct (write_segments defs data f (List.length data) LO L NE ltac:(lia)) as (rs & G & _ & W).
  exists rs. destruct (segments_shape _ _ _ _ G) as ((k & K) & F & P).
  split; [rewrite W, offer_recorder; reflexivity|]. split; [|split; [|exact P]].
  - destruct k as [|k]; [left; exact K|right; exists k; exact K].
  - eapply Forall_impl; [|exact F]. intros r (d & I & D & Id & Ld & R). exists d. repeat split; auto.
    unfold room in *. lia.
Qed.
Print Assumptions C39_report_shape.

(** Each report is of the definition that Pick should choose for the bytes then left, and the
    cutting is unique. *)
Theorem C39_segments defs f data :
  last_of defs 0 f -> (2 <= def_Len f)%Z -> data <> [] ->
  exists reports,
    WriteFrame (List.length data) defs recorder [] data = Some (Ret (reports, None))
    /\ forall rs, segments defs true data rs <-> rs = reports.
Proof.
  intros LO L NE. destruct (write_segments defs data f (List.length data) LO L NE ltac:(lia)) as (rs & G & _ & W).
  exists rs. split; [rewrite W, offer_recorder; reflexivity|].
  intros rs'. split; [intros G'; eapply segments_unique; eauto|now intros ->].
Qed.
Print Assumptions C39_segments.

(** With any report writer: the same reports are offered in that order until the writer fails,
    and its error is returned. *)
Theorem C39_any_writer defs f data :
  last_of defs 0 f -> (2 <= def_Len f)%Z -> data <> [] ->
  exists reports,
    WriteFrame (List.length data) defs recorder [] data = Some (Ret (reports, None))
    /\ forall W (wr : W -> Report -> W * option goerr) s,
         WriteFrame (List.length data) defs wr s data = Some (Ret (offer wr s reports)).
Proof.
  intros LO L NE. destruct (write_segments defs data f (List.length data) LO L NE ltac:(lia)) as (rs & G & _ & W).
  exists rs. split; [rewrite W, offer_recorder; reflexivity|]. exact W.
Qed.
Print Assumptions C39_any_writer.

Theorem C39_empty_frame W fuel defs (wr : W -> Report -> W * option goerr) s :
  WriteFrame fuel defs wr s [] = Some (Ret (s, None)).
Proof. exact (write_empty fuel defs wr s). Qed.
Print Assumptions C39_empty_frame.

Theorem C39_no_definition defs data W (wr : W -> Report -> W * option goerr) s :
  none_of defs 0 -> data <> [] ->
  exists e, WriteFrame (List.length data) defs wr s data = Some (Ret (s, Some e)).
Proof.
  intros N NE. exists errNoReport. apply write_none; auto. destruct data; cbn; [congruence|lia].
Qed.
Print Assumptions C39_no_definition.

Example C39_case :
  last_of [mkDef 1 3 0] 0 (mkDef 1 3 0)
  /\ WriteFrame 5 [mkDef 1 3 0] recorder [] [x0a; x0b; x0c; x0d; x0e]
     = Some (Ret ([mkReport x01 x02 [x0a; x0b]; mkReport x01 x03 [x0c; x0d]; mkReport x01 x01 [x0e; x00]], None))
  /\ none_of [mkDef 1 3 1] 0.
Proof.
  split; [|split].
  - exists [], []. repeat split; auto.
  - reflexivity.
  - apply Forall_cons; [discriminate|apply Forall_nil].
Qed.

(** ** C40 *)

Theorem C40_terminates defs f data W (wr : W -> Report -> W * option goerr) s :
  last_of defs 0 f -> (2 <= def_Len f)%Z ->
  exists r, WriteFrame (List.length data) defs wr s data = Some (Ret r).
Proof.
  intros LO L. destruct data as [|b data].
  - exists (s, None). exact (write_empty 0 defs wr s).
  - destruct (write_segments defs (b :: data) f (List.length (b :: data)) LO L ltac:(discriminate) ltac:(lia))
      as (rs & _ & _ & H). exists (offer wr s rs). exact (H W wr s).
Qed.
Print Assumptions C40_terminates.

(** A frame that some definition can hold takes exactly one report, the first that fits,
    whatever the fallback is. *)
Theorem C40_single_report defs data d W (wr : W -> Report -> W * option goerr) s :
  data <> [] -> first_fit defs 0 (Z.of_nat (List.length data)) d ->
  WriteFrame 1 defs wr s data
  = Some (Ret (wr s (mkReport (id_byte d) x00 (data ++ repeat x00 (room d - List.length data))))).
Proof. intros NE FF. exact (write_single defs data d 1 W wr s NE FF (le_n 1)). Qed.
Print Assumptions C40_single_report.

(** Otherwise a fallback of Len 1 never terminates (as long as writes succeed) ... *)
Theorem C40_len1_never_terminates defs data f fuel W (wr : W -> Report -> W * option goerr) s :
  Forall (fun x => ~ fits 0 (Z.of_nat (List.length data)) x) defs ->
  last_of defs 0 f -> def_Len f = 1%Z -> data <> [] -> (forall s r, snd (wr s r) = None) ->
  WriteFrame fuel defs wr s data = None.
Proof. intros NF LO L NE H. apply (write_forever defs data f fuel W wr NF LO L NE). intros s'. apply H. Qed.
Print Assumptions C40_len1_never_terminates.

(** ... and one of Len 0 or less panics. *)
Theorem C40_len0_panics defs data f W (wr : W -> Report -> W * option goerr) s :
  Forall (fun x => ~ fits 0 (Z.of_nat (List.length data)) x) defs ->
  last_of defs 0 f -> (def_Len f <= 0)%Z -> data <> [] ->
  WriteFrame 1 defs wr s data = Some Panic.
Proof. intros NF LO L NE. exact (write_panics defs data f 1 W wr s NF LO L NE (le_n 1)). Qed.
Print Assumptions C40_len0_panics.

Example C40_case :
  WriteFrame 100 [mkDef 1 1 0] recorder [] [x01] = None
  /\ WriteFrame 1 [mkDef 1 0 0] recorder [] [x01] = Some Panic
  /\ first_fit [mkDef 1 2 0; mkDef 2 1 0] 0 1 (mkDef 1 2 0)
  /\ WriteFrame 1 [mkDef 1 2 0; mkDef 2 1 0] recorder [] [x07] = Some (Ret ([mkReport x01 x00 [x07]], None)).
Proof.
  split; [reflexivity|]. split; [reflexivity|]. split; [|reflexivity].
  exists [], [mkDef 2 1 0]. repeat split; auto. cbn. lia.
Qed.

(** ** C41 *)

Theorem C41_pick defs dir n d :
  Pick defs n dir = inl d
  <-> first_fit defs dir n d \/ (Forall (fun x => ~ fits dir n x) defs /\ last_of defs dir d).
Proof. exact (Pick_choice defs dir n d). Qed.
Print Assumptions C41_pick.

Theorem C41_pick_fails defs dir n :
  (exists e, Pick defs n dir = inr e) <-> Forall (fun x => def_Dir x <> dir) defs.
Proof.
  split.
  - intros (e & H). now apply (Pick_none defs dir n e) in H.
  - intros N. exists errNoReport. now apply Pick_none.
Qed.
Print Assumptions C41_pick_fails.

Theorem C41_legacy_smallest dir n d d' :
  Pick LegacyReportDefs n dir = inl d -> fits dir n d ->
  In d' LegacyReportDefs -> fits dir n d' -> (def_Len d <= def_Len d')%Z.
Proof.
  intros P F I F'. apply (sorted_smallest LegacyReportDefs dir n d d' legacy_sorted); auto.
  apply Pick_choice in P as [P|[N _]]; [exact P|]. rewrite Forall_forall in N.
  exfalso. now apply (N d').
Qed.
Print Assumptions C41_legacy_smallest.

(** Finding: the default table sends some frames in a larger report than needed. *)
Theorem C41_default_smallest_refuted :
  exists n d d', Pick DefaultReportDefs n 0 = inl d /\ fits 0 n d
    /\ In d' DefaultReportDefs /\ fits 0 n d' /\ (def_Len d' < def_Len d)%Z.
Proof.
  exists 5%Z, (mkDef 1 12 0), (mkDef 5 8 0). split; [reflexivity|].
  unfold fits. cbn. intuition lia.
Qed.
Print Assumptions C41_default_smallest_refuted.

(** Which reports the two shipped tables have, and in which direction; the default one has none from the
    accessory. *)
Theorem C41_shipped id :
  (forall d, Find LegacyReportDefs id = inl d ->
     def_ID d = id /\ def_Dir d = (if (id <=? 12)%Z then ReportDirAccIn else ReportDirAccOut) /\ (5 <= def_Len d <= 767)%Z)
  /\ ((exists d, Find LegacyReportDefs id = inl d) <-> (1 <= id <= 21)%Z)
  /\ (forall d, Find DefaultReportDefs id = inl d -> def_ID d = id /\ def_Dir d = ReportDirAccIn /\ (8 <= def_Len d <= 63)%Z)
  /\ ((exists d, Find DefaultReportDefs id = inl d) <-> (1 <= id <= 9)%Z).
Proof. exact (shipped_tables id). Qed.
Print Assumptions C41_shipped.

Example C41_case :
  Pick LegacyReportDefs 100 0 = inl (mkDef 8 193 0) /\ Pick LegacyReportDefs 9999 1 = inl (mkDef 21 255 1).
Proof. split; reflexivity. Qed.

(** ** C42 *)

Theorem C42_frame defs buf input rest b frame :
  ReadFrame defs buf input = Ret (rest, b, inl frame)
  <-> b = frame /\ exists pre last, input = map inl (pre ++ [last]) ++ rest
        /\ Forall (live defs) (pre ++ [last]) /\ Forall (fun x => ~ ends x) pre /\ ends last
        /\ frame_of defs (pre ++ [last]) frame.
Proof. exact (ReadFrame_ok_iff defs buf input rest b frame). Qed.
Print Assumptions C42_frame.

(** [frame_of] determines the frame. *)
Theorem C42_frame_unique defs rs f f' : frame_of defs rs f -> frame_of defs rs f' -> f = f'.
Proof. exact (frame_of_fun defs rs f f'). Qed.
Print Assumptions C42_frame_unique.

Theorem C42_error defs buf input rest e :
  (exists b, ReadFrame defs buf input = Ret (rest, b, inr e))
  <-> exists pre, Forall (live defs) pre /\ Forall (fun x => ~ ends x) pre
        /\ ((input = map inl pre ++ inr e :: rest)
            \/ (exists r, input = map inl pre ++ inl r :: rest /\ unknown defs r /\ e = errReportID)
            \/ (input = map inl pre /\ rest = [] /\ e = EOF)).
Proof. exact (ReadFrame_err_iff defs buf input rest e). Qed.
Print Assumptions C42_error.

Theorem C42_panic defs buf input :
  ReadFrame defs buf input = Panic
  <-> exists pre r d rest, input = map inl pre ++ inl r :: rest /\ Forall (live defs) pre
        /\ Forall (fun x => ~ ends x) pre /\ known defs r d /\ (def_Len d <= 0)%Z.
Proof. exact (ReadFrame_panic_iff defs buf input). Qed.
Print Assumptions C42_panic.

(** Nothing is kept from one frame to the next. *)
Theorem C42_no_leak defs n input buf buf' : 
  read_frames n defs buf input = read_frames n defs buf' input.
Proof. destruct n; reflexivity. Qed.
Print Assumptions C42_no_leak.

Example C42_case :
  ReadFrame [mkDef 1 3 0] [xff; xff]
    (map inl [mkReport x01 x03 [x01; x02]; mkReport x01 x02 [x03; x04; x05]; mkReport x01 x09 [x06];
              mkReport x01 x03 [x07]; mkReport x01 x01 [x08; x09]; mkReport x01 x00 [x0a]])
  = Ret ([inl (mkReport x01 x00 [x0a])], [x03; x04; x07; x08; x09], inl [x03; x04; x07; x08; x09]).
Proof. reflexivity. Qed.

(** ** C43 *)

Theorem C43_raw_roundtrip sent r :
  1 <= List.length (rep_Data r) <= 1022 ->
  exists p, WriteReport packet_device sent r = Ret (sent ++ [p], None)
    /\ ReadReport (p, None) = inl r.
Proof. exact (raw_roundtrip sent r). Qed.
Print Assumptions C43_raw_roundtrip.

(** A longer report loses its tail. *)
Theorem C43_raw_long_truncated r :
  1022 < List.length (rep_Data r) ->
  exists p, WriteReport packet_device [] r = Ret ([p], None)
    /\ ReadReport (p, None) = inl (mkReport (rep_ID r) (rep_LinkControl r) (firstn 1022 (rep_Data r))).
Proof. exact (raw_long r). Qed.
Print Assumptions C43_raw_long_truncated.

Theorem C43_read_errors got :
  (forall e, ReadReport (got, Some e) = inr e)
  /\ (List.length got < 3 -> ReadReport (got, None) = inr NoProgress)
  /\ (3 <= List.length got -> exists r, ReadReport (got, None) = inl r).
Proof.
  split; [reflexivity|]. unfold ReadReport, maxRawSize.
  split; intros H; destruct got as [|a [|b [|c got]]]; cbn in H; try lia; try reflexivity.
  change 1024 with (3 + 1021). cbn [Nat.add]. rewrite !firstn_cons. eexists. reflexivity.
Qed.
Print Assumptions C43_read_errors.

(** Writing: one device Write with the whole report; its error is passed through and a short
    write is an error. *)
Theorem C43_write S (dev : S -> bytes -> S * (nat * option goerr)) s r s' m err :
  dev s (rep_ID r :: rep_LinkControl r :: rep_Data r) = (s', (m, err)) ->
  m <= 2 + List.length (rep_Data r) ->
  WriteReport dev s r
  = Ret (s', match err with
             | Some e => Some e
             | None => if Nat.eqb m (2 + List.length (rep_Data r)) then None else Some errShortWrite
             end).
Proof.
  intros E M. unfold WriteReport. rewrite E. cbn [List.length].
  destruct (Nat.ltb_spec (Datatypes.S (Datatypes.S (List.length (rep_Data r)))) m); [lia|].
  destruct err; reflexivity.
Qed.
Print Assumptions C43_write.

(** A report given as bytes (SingleReport) is read as the raw reader reads it, but for its limits: bytes without an id
    and a link control crash it, a report without data is accepted, and there is no longest one. *)
Theorem C43_single s :
  (List.length s < 2 -> SingleReport_ReadReport s = Panic)
  /\ (forall id lc data, s = id :: lc :: data -> SingleReport_ReadReport s = Ret (inl (mkReport id lc data)))
  /\ (3 <= List.length s <= 1024 -> SingleReport_ReadReport s = Ret (ReadReport (s, None))).
Proof.
  split; [|split].
  - destruct s as [|a [|b s]]; cbn [List.length]; intros H; try reflexivity; lia.
  - intros id lc data ->. reflexivity.
  - intros H. unfold ReadReport. rewrite firstn_all2 by (unfold maxRawSize; lia).
    destruct s as [|a [|b [|c s]]]; cbn [List.length] in H; try lia. reflexivity.
Qed.
Print Assumptions C43_single.

(** It gives the same report however often it is read.  So a decoder on it returns the data if the report ends a frame;
    if not (finding), ReadFrame reads it again and again, as often as one may wait, and never returns. *)
Theorem C43_single_endless defs buf id lc data d n :
  Find defs (Z.of_N (b2n id)) = inl d -> (1 <= def_Len d)%Z ->
  let again := repeat (inl (mkReport id lc data) : Report + goerr) in
  (lc = x00 \/ lc = x01 -> exists f, f = firstn (Z.to_nat (def_Len d - 1)) data
     /\ ReadFrame defs buf (again (Datatypes.S n)) = Ret (again n, f, inl f))
  /\ (lc <> x00 -> lc <> x01 -> exists b, ReadFrame defs buf (again n) = Ret ([], b, inr EOF)).
Proof.
  intros F L again. unfold ReadFrame.
  assert (X : firstn (Z.to_nat (Z.min (Z.of_nat (List.length data)) (def_Len d - 1))) data = firstn (Z.to_nat (def_Len d - 1)) data).
  { destruct (Z.min_spec (Z.of_nat (List.length data)) (def_Len d - 1)%Z) as [[H ->]|[H ->]]; [|reflexivity]. rewrite Nat2Z.id, firstn_all. symmetry. apply firstn_all2. lia. }
  split.
  - intros C. eexists. split; [reflexivity|]. unfold again. cbn [repeat ReadFrame_loop rep_ID rep_LinkControl rep_Data]. rewrite F. cbv zeta. unfold MaxPayload. rewrite X.
    destruct (Z.min _ _ <? 0)%Z eqn:E; [lia|]. destruct C as [->| ->]; reflexivity.
  - intros N0 N1. generalize (@nil byte). induction n as [|n IH]; intros b; [eexists; reflexivity|].
    unfold again in *. cbn [repeat ReadFrame_loop rep_ID rep_LinkControl rep_Data]. rewrite F. cbv zeta. unfold MaxPayload.
    destruct (Z.min _ _ <? 0)%Z eqn:E; [lia|].
    assert (L0 : (b2n lc =? LinkControlDone)%N = false) by (destruct lc; try reflexivity; congruence).
    assert (L1 : (b2n lc =? LinkControlContinue)%N = false) by (destruct lc; try reflexivity; congruence).
    rewrite L0, L1. destruct (_ =? LinkControlMoreToFollow)%N; [apply IH|]. destruct (_ =? N.lor _ _)%N; apply IH.
Qed.
Print Assumptions C43_single_endless.

Example C43_single_case :
  Find DefaultReportDefs (Z.of_N (b2n x01)) = inl (mkDef 1 12 0) /\ SingleReport_ReadReport [x01; x02; x55] = Ret (inl (mkReport x01 x02 [x55])) /\ SingleReport_ReadReport [x01] = Panic.
Proof. repeat split. Qed.

Example C43_case :
  1 <= List.length (rep_Data (mkReport x01 x02 [x03])) <= 1022
  /\ ReadReport ([x01; x02], None) = inr NoProgress /\ ReadReport ([x01; x02; x03], Some EOF) = inr EOF.
Proof. cbn. repeat split; lia. Qed.

(** ** C44 *)

(** Over a packet-preserving raw device, with the shipped tables or any other usable one that the
    raw reader can hold. *)
Theorem C44_packets_over_hid defs ps :
  usable defs -> Forall (fun d => def_Len d <= 1023)%Z defs -> Forall writable ps -> ps <> [] ->
  let frame := write_all NewPacketWriter ps in
  exists sent, WriteFrame (List.length frame) defs raw_writer [] frame = Some (Ret (sent, None))
    /\ forall buf, exists got, ReadFrame defs buf (map ReadReport (as_reads sent)) = Ret ([], got, inl got)
         /\ forall sp k, exists fr, read_n (List.length ps + k) (mkSlice got sp)
              = Ret (fr, map (fun p => (p, None)) ps ++ repeat ([], Some EOF) k).
Proof.
  intros U SZ F NE. destruct (written_stream ps F NE) as [H NW]. exact (stream_over_raw defs ps _ U SZ H NW).
Qed.
Print Assumptions C44_packets_over_hid.

(** The same for any well-formed frame, not only those our writer makes. *)
Theorem C44_streams_over_hid defs ps w :
  usable defs -> Forall (fun d => def_Len d <= 1023)%Z defs -> stream ps w -> w <> [] ->
  exists sent, WriteFrame (List.length w) defs raw_writer [] w = Some (Ret (sent, None))
    /\ forall buf, exists got, ReadFrame defs buf (map ReadReport (as_reads sent)) = Ret ([], got, inl got)
         /\ forall sp k, exists fr, read_n (List.length ps + k) (mkSlice got sp)
              = Ret (fr, map (fun p => (p, None)) ps ++ repeat ([], Some EOF) k).
Proof. exact (stream_over_raw defs ps w). Qed.
Print Assumptions C44_streams_over_hid.

Theorem C44_shipped_tables :
  (usable DefaultReportDefs /\ Forall (fun d => def_Len d <= 1023)%Z DefaultReportDefs)
  /\ (usable LegacyReportDefs /\ Forall (fun d => def_Len d <= 1023)%Z LegacyReportDefs).
Proof.
  repeat split; try apply default_usable; try apply legacy_usable;
    repeat apply Forall_cons; try apply Forall_nil; cbn; lia.
Qed.
Print Assumptions C44_shipped_tables.

Example C44_case :
  Forall writable [[x55; x00]; [x01]]
  /\ WriteFrame 9 DefaultReportDefs raw_writer [] (write_all NewPacketWriter [[x55; x00]; [x01]])
     = Some (Ret ([[x01; x00; x55; x02; x55; x00; xa9; x55; x01; x01; xfe; x00; x00]], None)).
Proof. split; [|reflexivity]. repeat constructor; vm_compute; congruence. Qed.
