(** Properties C94 (on real buffers), C95, C96: the server's buffers, memory, grouping of packets, and bounds. *)
From Coq Require Import ZifyBool ZifyNat ZifyN Lia.
From Verif Require Import Base BaseFacts GoTypes Types Payload Lingo Command SpecPayload SpecCommand Handlers SpecHandlers
  SpecProtocol Packet SpecPacket Hid SpecHid HidThms Trace SpecTrace Server SpecServer SpecWire ServerThms ProtocolProps
  Mem SpecMem MemThms MemServer ProtocolMore PropProtocol.
(** [fresh] below is the machine at the start. *)
Notation fresh := SpecWire.fresh.
#[local] Opaque std_registry requests.

(** ** C94 on real buffers *)

(** The server with its real buffers, in whatever state earlier use has left them and however they
    grow: an accessory that sends proper frames gets the machine's answers. *)
Theorem C94_memory rt clock defs pol m rss pss fuel fuel2 :
  usable defs -> reachable m -> Forall2 (sends defs) rss pss ->
  let reads := map (fun r => (report_bytes r, None)) (List.concat rss) in
  List.length reads < fuel -> List.length reads < fuel2 ->
  let served := processFrames fuel rt std_registry clock DevGeneral_device
               (mem_transport fuel2 defs pol wire_read wire_write) h0 (m, (reads, [])) in
  match conversation rt clock fresh pss with
  | None => served = Some Panic
  | Some (mm, fs) =>
      exists st' m' rest outs, served = done (st', (m', (rest, outs))) /\ memory_of st' = mm /\ departs defs fs outs
  end.
Proof.
  intros U R S reads L L2.
  destruct (processFrames_sim rt std_registry clock DevGeneral_device fuel2 defs pol wire_read wire_write fuel h0 m (reads, []) (reachable_ok m R))
    as [spares E].
  pose proof (C94_accessory rt clock defs spares rss pss fuel fuel2 U S L L2) as A. cbv zeta in A. fold reads in A.
  destruct (conversation rt clock fresh pss) as [[mm fs]|].
  - destruct A as (st' & rest & k & outs & A & M & D).
    match type of E with same_end _ _ ?y => replace y with (done (st', ((rest, outs), k))) in E by (symmetry; exact A) end. match type of E with same_end _ ?x _ => destruct x as [[[st2 [m2 d2]]|]|] eqn:X end; try contradiction. cbn [same_end done fst snd] in E. destruct E as [-> ->].
    exists st', m2, rest, outs. split; [exact X|]. auto.
  - match type of E with same_end _ _ ?y => replace y with (@Some (outcome (server DevGeneral * (wire * nat))) Panic) in E by (symmetry; exact A) end. match type of E with same_end _ ?x _ => destruct x as [[[st2 [m2 d2]]|]|] eqn:X end; try contradiction. exact X.
Qed.
Print Assumptions C94_memory.

(** The buffers at the start are one such state; [C94_case] has an accessory that sends proper frames. *)
Example C94_memory_case : reachable new_mem /\ usable DefaultReportDefs.
Proof. split; [apply steps_none|exact default_usable]. Qed.

(** ** C95 *)

(** Two servers with the same memory cannot be told apart: on the same transport both do the same
    for ever, whatever identification tokens, certificates and settings they were sent before. *)
Theorem C95_memory_counts {W} rt clock (tp : transport W) fuel st1 st2 w :
  sound st1 -> sound st2 -> memory_of st1 = memory_of st2 ->
  same_run (processFrames_loop fuel rt std_registry clock DevGeneral_device tp st1 w)
           (processFrames_loop fuel rt std_registry clock DevGeneral_device tp st2 w).
Proof. exact (same_runs rt clock tp fuel st1 st2 w). Qed.
Print Assumptions C95_memory_counts.

(** How an accessory groups its packets into frames does not matter, as long as none of them
    switches transaction numbers on or off: the same frames are sent in reply, or both crash. *)
Theorem C95_grouping rt clock ins ins' pss pss' fuel fuel' :
  hears ins pss -> hears ins' pss' -> List.concat pss = List.concat pss' ->
  Forall (fun p => ~ switches p) (List.concat pss) ->
  List.length ins < fuel -> List.length ins' < fuel' ->
  let served f i := processFrames f rt std_registry clock DevGeneral_device script h0 (i, []) in
  served fuel ins = Some Panic /\ served fuel' ins' = Some Panic
  \/ exists st st' rest rest' outs,
       served fuel ins = done (st, (rest, outs)) /\ served fuel' ins' = done (st', (rest', outs))
       /\ memory_of st = memory_of st'.
Proof.
  intros H H' C N L L' served.
  pose proof (C93_session rt clock ins pss fuel H L) as A. pose proof (C93_session rt clock ins' pss' fuel' H' L') as B.
  rewrite (conversation_flat rt clock pss fresh N) in A.
  rewrite (conversation_flat rt clock pss' fresh), <- C in B by (rewrite <- C; exact N).
  destruct (receive_frame rt clock fresh (List.concat pss)) as [[m outs]|]; [right|left; split; assumption].
  destruct A as (st & rest & M & A), B as (st' & rest' & M' & B). exists st, st', rest, rest', outs.
  split; [exact A|]. split; [exact B|]. congruence.
Qed.
Print Assumptions C95_grouping.

(** The same on HID reports: the same reports are written, whatever report table the accessory's
    reports follow and however it cuts its frames. *)
Theorem C95_grouping_wire rt clock defs spares spares' rss rss' pss pss' fuel :
  usable defs -> Forall2 (sends defs) rss pss -> Forall2 (sends defs) rss' pss' ->
  List.concat pss = List.concat pss' -> Forall (fun p => ~ switches p) (List.concat pss) ->
  List.length (List.concat rss) < fuel -> List.length (List.concat rss') < fuel ->
  let served sp r := processFrames fuel rt std_registry clock DevGeneral_device
         (hid_transport fuel defs sp wire_read wire_write) h0 ((map (fun x => (report_bytes x, None)) (List.concat r), []), 0) in
  served spares rss = Some Panic /\ served spares' rss' = Some Panic
  \/ exists st st' rest rest' k k' outs,
       served spares rss = done (st, ((rest, outs), k)) /\ served spares' rss' = done (st', ((rest', outs), k'))
       /\ memory_of st = memory_of st'.
Proof.
  intros U S S' C N L L' served.
  pose proof (C94_accessory rt clock defs spares rss pss fuel fuel U S) as A.
  pose proof (C94_accessory rt clock defs spares' rss' pss' fuel fuel U S') as B.
  cbv zeta in A, B. rewrite map_length in A, B. specialize (A L L). specialize (B L' L').
  rewrite (conversation_flat rt clock pss fresh N) in A.
  rewrite (conversation_flat rt clock pss' fresh), <- C in B by (rewrite <- C; exact N).
  destruct (receive_frame rt clock fresh (List.concat pss)) as [[m fs]|]; [right|left; split; assumption].
  destruct A as (st & rest & k & outs & A & M & D), B as (st' & rest' & k' & outs' & B & M' & D').
  rewrite <- (departs_unique _ _ _ _ D D') in B. exists st, st', rest, rest', k, k', outs.
  split; [exact A|]. split; [exact B|]. congruence.
Qed.
Print Assumptions C95_grouping_wire.

#[local] Transparent requests.

(** Finding: a packet that switches transaction numbers on does matter.  A request for the name with
    a number, before the start of identification: in a frame of its own it is answered without
    the number, in one frame with the start of identification it is answered with it. *)
Definition one_frame : list (list bytes) := [[[x00; x07; x12; x34]; [x00; x38; x00; x01]]].
Definition two_frames : list (list bytes) := [[[x00; x07; x12; x34]]; [[x00; x38; x00; x01]]].
Theorem C95_switching_refuted :
  List.concat one_frame = List.concat two_frames
  /\ exists a b c ma mb,
       conversation true clock0 fresh one_frame = Some (ma, [a; c]) /\ conversation true clock0 fresh two_frames = Some (mb, [b; c])
       /\ a = frame_bytes ([x00; x08; x12; x34] ++ c_string "ipod-gadget") /\ b = frame_bytes ([x00; x08] ++ c_string "ipod-gadget").
Proof. split; [reflexivity|]. do 5 eexists. split; [vm_compute; reflexivity|]. split; [vm_compute; reflexivity|]. split; vm_compute; reflexivity. Qed.
Print Assumptions C95_switching_refuted.

(** Two servers of the same memory, of which one has been sent a certificate and tokens; packets
    that switch nothing. *)
Example C95_case :
  (let st := mkServer true (mkH DevGeneral_init [] 7 0 []) in
   let st' := mkServer true (mkH (mkDG 0 [mkTV 0 1 TokNil]) [x01; x02] 7 0 []) in
   sound st /\ sound st' /\ memory_of st = memory_of st' /\ st <> st')
  /\ Forall (fun p => ~ switches p) [[x00; x07; x12; x34]; [x00; x05]; [x00; x39; x00]].
Proof.
  split.
  - cbv zeta. split; [discriminate|]. split; [discriminate|]. split; [reflexivity|]. discriminate.
  - repeat (apply Forall_cons; [intros (c & b & E & I); injection E as <- <-; cbn in I; intuition discriminate|]). apply Forall_nil.
Qed.
#[local] Opaque requests.

(** ** C96 *)

(** A frame of [n] packets is answered with at most [3 n] frames, of at most 1285 bytes each; and of
    at most 28 bytes each, if no packet carries identification tokens. *)
Theorem C96_bounded {W} rt clock (tp : transport W) st w fr ps :
  sound st -> holds fr ps ->
  process_frame rt std_registry clock DevGeneral_device tp st w fr = Some Panic
  \/ exists fs st', process_frame rt std_registry clock DevGeneral_device tp st w fr = (go w' <- feed tp w fs; done (st', w'))
       /\ List.length fs <= 3 * List.length ps
       /\ Forall (fun f => List.length f <= 1285) fs
       /\ (Forall (fun p => ~ has_tokens p) ps -> Forall (fun f => List.length f <= 28) fs).
Proof.
  intros S H. pose proof (frame_received rt clock tp st w fr ps S H) as F. unfold receive_frame in F.
  destruct (receive_all rt clock (memory_of st) ps) as [[m l]|] eqn:R; [right|left; exact F].
  destruct F as (st' & _ & _ & E). eexists _, st'. split; [exact E|]. rewrite map_length.
  destruct (received_all _ _ _ _ _ _ R) as (_ & L & B & N). split; [exact L|]. rewrite !Forall_map. split.
  - eapply Forall_impl; [|exact B]. intros r Hr. exact (frame_size _ 1280 (Hr _)).
  - intros T. eapply Forall_impl; [|exact (N T)]. intros r Hr. exact (frame_size _ 25 (Hr _)).
Qed.
Print Assumptions C96_bounded.

(** Frames that fit a report of the table are written in one report each: report id, link control 0
    and the frame, filled up with zeros.  Empty frames are not written. *)
Theorem C96_reports defs fs outs :
  departs defs fs outs -> Forall (fun f => Exists (SpecHid.fits 0 (Z.of_nat (List.length f))) defs) fs ->
  Forall2 (fun f o => exists d, In d defs /\ o = id_byte d :: x00 :: f ++ repeat x00 (room d - List.length f))
    (filter (fun f => negb (Nat.eqb (List.length f) 0)) fs) outs.
Proof. exact (one_each defs fs outs). Qed.
Print Assumptions C96_reports.

(** Both tables of the library have room for 28 bytes. *)
Theorem C96_tables (f : bytes) :
  List.length f <= 28 ->
  Exists (SpecHid.fits 0 (Z.of_nat (List.length f))) DefaultReportDefs /\ Exists (SpecHid.fits 0 (Z.of_nat (List.length f))) LegacyReportDefs.
Proof.
  intros L. split; apply Exists_exists; [exists (mkDef 9 63 0)|exists (mkDef 7 95 0)];
    (split; [cbn; tauto|]; split; [reflexivity|]; cbn [def_Len]; lia).
Qed.
Print Assumptions C96_tables.

#[local] Transparent requests.
(** The bounds are met: 255 tokens are acknowledged in a frame of 1285 bytes, the last section of a
    certificate leads to three replies, one of 28 bytes. *)
Definition many_tokens : bytes := [x00; x39; x00; x01; xff] ++ List.concat (repeat [x03; x00; x04; x00] 255).
Example C96_case :
  let m := mkMemory true false 0 0 in
  (exists m' (f : bytes), receive_frame true clock0 m [many_tokens] = Some (m', [f]) /\ List.length f = 1285)
  /\ (exists m' (f g h : bytes), receive_frame true clock0 m [[x00; x15; x00; x01; x02; x00; x00; x00]] = Some (m', [f; g; h])
        /\ List.length h = 28)
  /\ has_tokens many_tokens /\ ~ has_tokens [x00; x15; x00; x01; x02; x00; x00; x00].
Proof.
  cbv zeta. split; [|split; [|split]].
  - do 2 eexists. split; vm_compute; reflexivity.
  - do 4 eexists. split; vm_compute; reflexivity.
  - eexists. reflexivity.
  - intros [b E]. discriminate E.
Qed.
