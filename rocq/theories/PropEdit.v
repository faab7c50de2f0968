(** C108: trace files written or edited by hand. *)
From Coq Require Import ZifyBool ZifyNat ZifyN Lia.
From Verif Require Import Base BaseFacts GoTypes Types Payload Lingo Command Handlers SpecHandlers SpecProtocol Packet SpecPacket Hid SpecHid
  HidThms Trace SpecTrace TraceThms Server SpecServer ServerThms SpecWire ProtocolProps PropProtocol Send SpecSend SendThms RetryThms
  SpecView ViewThms SpecEdit EditThms.
Notation fresh := SpecWire.fresh.
#[local] Opaque requests.

(** ** C108 *)

(** Every file has lines, and every list of lines exactly one list of incoming messages. *)
Theorem C108_lines content : exists lines, is_text content lines /\ exists xs, incoming lines xs /\ forall xs', incoming lines xs' -> xs' = xs.
Proof.
  destruct (text_exists content) as (lines & T). exists lines. split; [exact T|]. destruct (incoming_exists lines) as (xs & I).
  exists xs. split; [exact I|]. intros xs' I'. exact (incoming_fun _ _ I' _ I).
Qed.
Print Assumptions C108_lines.

(** The replay of a file is what the server does on a device that gives its incoming messages, and fails
    where a line is no message: the same replies and calls of the device in the same order, or the same crash.
    So no blank line, no outgoing message, and no way of writing a message matters. *)
Theorem C108_replay {S} rt reg clock (g : DeviceGeneral S) defs spares h fuel fuel2 content lines xs :
  usable defs -> is_text content lines -> Forall (fun l => (len l <= 65535)%N) lines -> incoming lines xs ->
  served (processFrames fuel rt reg clock g (hid_transport fuel2 defs spares replay_read discard) h (NewReader content EOF, 0))
  = served (processFrames fuel rt reg clock g (hid_transport fuel2 defs spares wire_read wire_write) h ((map as_read xs, []), 0)).
Proof.
  intros U T L I. rewrite (text_reader _ _ EOF T L). exact (replay_served rt reg clock g defs spares U fuel fuel2 _ lines 0 xs 0 [] I).
Qed.
Print Assumptions C108_replay.

(** The send command writes the incoming messages, each cut to 1024 bytes, up to the first line that is
    no message or has fewer than three bytes. *)
Theorem C108_send content lines xs :
  is_text content lines -> Forall (fun l => (len l <= 65535)%N) lines -> incoming lines xs -> sendable_of content EOF (sent_of xs).
Proof. intros T L I. unfold sendable_of. rewrite (text_reader _ _ EOF T L). exact (send_incoming lines xs I 0). Qed.
Print Assumptions C108_send.

(** The viewer shows nothing of a file with a line that is no message. *)
Theorem C108_view rt defs spares content lines xs :
  is_text content lines -> Forall (fun l => (len l <= 65535)%N) lines -> incoming lines xs -> In None xs ->
  exists e, dumpTrace rt std_registry defs spares (NewReader content EOF) = done (inr e) /\ e <> EOF.
Proof.
  intros T L I N. rewrite (text_reader _ _ EOF T L). exact (view_incoming rt std_registry defs spares lines xs 0 I N).
Qed.
Print Assumptions C108_view.

(** Files joined one behind the other, the first ending in a newline, give their messages one after the
    other. *)
Theorem C108_join a la xa b lb xb :
  is_text a la -> a = file_of la -> incoming la xa -> is_text b lb -> incoming lb xb ->
  is_text (a ++ b) (la ++ lb) /\ incoming (la ++ lb) (xa ++ xb).
Proof.
  intros [NA _] -> IA [NB TB] IB. split; [|exact (incoming_app _ _ IA _ _ IB)]. split; [now apply Forall_app|].
  assert (FA : forall x y, file_of (x ++ y) = file_of x ++ file_of y) by (intros x y; unfold file_of; now rewrite map_app, concat_app).
  destruct TB as [->|(pre & last & -> & NE & ->)]; [left; symmetry; apply FA|].
  right. exists (la ++ pre), last. rewrite FA, <- !app_assoc. auto.
Qed.
Print Assumptions C108_join.

(** Lines that are no messages do not matter to a replay as long as they stand between frames: the server
    ends like one on a device, which has the memory and has written the frames of the conversation; or it
    crashes where the conversation does. *)
Theorem C108_notes rt clock defs spares content lines xs rss pss fuel fuel2 :
  usable defs -> is_text content lines -> Forall (fun l => (len l <= 65535)%N) lines -> incoming lines xs ->
  noted rss xs -> Forall2 (sends defs) rss pss -> List.length xs < fuel -> List.length xs < fuel2 ->
  let ran := processFrames fuel rt std_registry clock DevGeneral_device
               (hid_transport fuel2 defs spares replay_read discard) h0 (NewReader content EOF, 0) in
  match conversation rt clock fresh pss with
  | None => ran = Some Panic
  | Some (m, fs) => exists st w rest k outs, ran = done (st, w) /\ memory_of st = m
      /\ processFrames fuel rt std_registry clock DevGeneral_device
           (hid_transport fuel2 defs spares wire_read wire_write) h0 ((map as_read xs, []), 0) = done (st, ((rest, outs), k))
      /\ departs defs fs outs
  end.
Proof.
  intros U T L I N F A B ran.
  pose proof (C108_replay rt std_registry clock DevGeneral_device defs spares h0 fuel fuel2 content lines xs U T L I) as E. fold ran in E.
  pose proof (C94_wire rt clock defs spares (map as_read xs) pss fuel fuel2 U (noted_arrives defs spares rss xs N pss F 0)) as W.
  rewrite map_length in W. specialize (W A B). cbv zeta in W.
  destruct (conversation rt clock fresh pss) as [[m fs]|].
  - destruct W as (st & rest & k & outs & W & M & DP). rewrite W in E. cbn [served io_bind done] in E.
    destruct ran as [[[st' w]|]|]; try discriminate E. injection E as ->. exists st, w, rest, k, outs. auto.
  - rewrite W in E. destruct ran as [[[st' w]|]|]; try discriminate E. reflexivity.
Qed.
Print Assumptions C108_notes.

(** Finding: within a frame such a line costs the frame. *)
Definition line_text (s : string) : bytes := list_byte_of_string s.
Definition frame_lines : list bytes := map line_text ["< 05 02 55 02 00"; "< 05 01 07 F7 00 00"]%string.
Definition broken_lines : list bytes := map line_text ["< 05 02 55 02 00"; "# the rest"; "< 05 01 07 F7 00 00"]%string.
Definition replay_of (lines : list bytes) : io (server DevGeneral) :=
  served (processFrames 9 true std_registry clock0 DevGeneral_device
            (hid_transport 9 DefaultReportDefs (fun _ => []) replay_read discard) h0 (NewReader (file_of lines) EOF, 0)).

Theorem C108_notes_refuted : exists st st',
  replay_of frame_lines = done st /\ replay_of broken_lines = done st'
  /\ List.length (h_log (sv_h st)) = 2 /\ h_log (sv_h st') = [].
Proof. eexists _, _. split; [vm_compute; reflexivity|]. split; [vm_compute; reflexivity|]. split; reflexivity. Qed.
Print Assumptions C108_notes_refuted.

(** A file with a comment, an outgoing message, a blank line and a last line without a newline. *)
Definition hand_lines : list bytes :=
  map line_text ["# asks for the name"; "< 09 02 00 55 02 00"; "> 05 00 55"; ""; "<x090107f7 00 0000 "]%string.
Definition hand_file : bytes := file_of (removelast hand_lines) ++ last hand_lines [].

Example C108_case :
  let rs := [mkReport x09 x02 [x00; x55; x02; x00]; mkReport x09 x01 [x07; xf7; x00; x00; x00]] in
  is_text hand_file hand_lines /\ Forall (fun l => (len l <= 65535)%N) hand_lines
  /\ exists xs, incoming hand_lines xs /\ noted [rs] xs /\ In None xs /\ sends DefaultReportDefs rs [[x00; x07]] /\ usable DefaultReportDefs.
Proof.
  cbv zeta. split; [split|].
  { repeat (apply Forall_cons; [vm_compute; intuition discriminate|]). apply Forall_nil. }
  { right. exists (removelast hand_lines), (last hand_lines []). split; [reflexivity|]. split; [discriminate|reflexivity]. }
  split; [repeat (apply Forall_cons; [vm_compute; discriminate|]); apply Forall_nil|].
  assert (DR : forall l, dropCR l = l -> dropped l l) by (intros l E; rewrite <- E at 2; apply dropCR_dropped).
  exists [None; Some [x09; x02; x00; x55; x02; x00]; Some [x09; x01; x07; xf7; x00; x00; x00]]. split.
  { unfold hand_lines. cbn [map]. eapply inc_none; [apply DR; reflexivity|discriminate| |].
    { intros d data A. apply (TraceFacts.unmarshal_ok (mkMsg 0 0 [])) in A. vm_compute in A. discriminate A. }
    eapply inc_in; [apply DR; reflexivity|apply (TraceFacts.unmarshal_ok (mkMsg 0 0 [])); reflexivity|].
    eapply inc_out; [apply DR; reflexivity|apply (TraceFacts.unmarshal_ok (mkMsg 0 0 [])); reflexivity|].
    apply inc_blank; [apply DR; reflexivity|].
    eapply inc_in; [apply DR; reflexivity|apply (TraceFacts.unmarshal_ok (mkMsg 0 0 [])); reflexivity|]. constructor. }
  split; [apply noted_none; refine (noted_frame _ [] [] noted_end)|]. split; [now left|]. split; [|exact default_usable].
  assert (K : forall lc data, known DefaultReportDefs (mkReport x09 lc data) (mkDef 9 63 0)).
  { intros lc data. exists (firstn 8 DefaultReportDefs), []. split; [reflexivity|]. split; [reflexivity|].
    repeat (apply Forall_cons; [discriminate|]). apply Forall_nil. }
  assert (LV : forall lc data, live DefaultReportDefs (mkReport x09 lc data)).
  { intros lc data. exists (mkDef 9 63 0). split; [apply K|discriminate]. }
  assert (CT : forall lc data, ignored (mkReport x09 lc data) = false -> List.length data <= 62 ->
               contributes DefaultReportDefs (mkReport x09 lc data) data).
  { intros lc data I L. exists (mkDef 9 63 0). split; [apply K|]. split; [discriminate|]. rewrite I. cbn [rep_Data].
    symmetry. now apply firstn_all2. }
  exists [mkReport x09 x02 [x00; x55; x02; x00]], (mkReport x09 x01 [x07; xf7; x00; x00; x00]), [x00; x55; x02; x00; x07; xf7; x00; x00; x00].
  split; [reflexivity|]. split.
  { split; (apply Forall_cons; [|apply Forall_nil]); [apply LV|]. intros [H|H]; discriminate H. }
  split; [apply LV|]. split; [right; reflexivity|].
  split; [apply Forall_cons; [vm_compute; lia|apply Forall_cons; [vm_compute; lia|apply Forall_nil]]|]. split.
  - apply frame_started with [] (mkReport x09 x02 [x00; x55; x02; x00]) [mkReport x09 x01 [x07; xf7; x00; x00; x00]]
      [[x00; x55; x02; x00]; [x07; xf7; x00; x00; x00]]; [reflexivity|right; reflexivity| | |reflexivity].
    { apply Forall_cons; [|apply Forall_nil]. intros [H|H]; discriminate H. }
    apply Forall2_cons; [|apply Forall2_cons; [|apply Forall2_nil]]; (apply CT; [reflexivity|vm_compute; lia]).
  - replace [x00; x55; x02; x00; x07; xf7; x00; x00; x00] with (frame_with [[x00; x07]] ++ [x00; x00]) by (vm_compute; reflexivity). apply stream_more. apply framed.
    repeat (apply Forall_cons; [split; vm_compute; (reflexivity || discriminate || (split; discriminate))|]). apply Forall_nil.
Qed.
