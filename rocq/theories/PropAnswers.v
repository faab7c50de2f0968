(** Properties C91-C92: the bytes of the answers about the player. *)
From Verif Require Import Base GoTypes Types Payload Lingo Command SpecPayload SpecCommand Handlers
  SpecHandlers HandlersFacts AnswerThms SpecAnswers PropHandlers.
#[local] Opaque std_registry.

(** ** C91 *)

(** Every request of the table gets the bytes of the table, whatever its fields, whatever the
    device and whatever happened before. *)
Theorem C91_fixed {S} clock (dev : DeviceGeneral S) r t vs id body h :
  In (t, id, body) fixed_answers -> asks r t vs ->
  answered (handlePacket std_registry clock dev r) r id body h.
Proof. exact (fixed_answer clock dev r t vs id body h). Qed.
Print Assumptions C91_fixed.

(** A state info answer starts with the info type asked for. *)
Theorem C91_state {S} clock (dev : DeviceGeneral S) r ty value h :
  In (ty, value) state_answers -> asks r disp_GetiPodStateInfo [VU ty] ->
  answered (handlePacket std_registry clock dev r) r [x03; x0d] (n2b ty :: value) h.
Proof. exact (state_answer clock dev r ty value h). Qed.
Print Assumptions C91_state.

(** Date and time are those of the clock when the request is handled. *)
Theorem C91_date {S} clock (dev : DeviceGeneral S) r h :
  asks r disp_GetiPodStateInfo [VU 9] ->
  answered (handlePacket std_registry clock dev r) r [x03; x0d] (x09 :: date_bytes (clock (h_ticks h))) h.
Proof. exact (date_answer clock dev r h). Qed.
Print Assumptions C91_date.

Theorem C91_track {S} clock (dev : DeviceGeneral S) r ty rest h :
  asks r ext_GetIndexedPlayingTrackInfo (VU ty :: rest) ->
  answered (handlePacket std_registry clock dev r) r [x04; x00; x0d] (n2b ty :: track_answer ty) h.
Proof. exact (track_bytes clock dev r ty rest h). Qed.
Print Assumptions C91_track.

(** Display remote: capabilities (300000 ms, no chapters) and artwork count; C71 has the rest. *)
Theorem C91_track_caps {S} clock (dev : DeviceGeneral S) r rest h :
  asks r disp_GetIndexedPlayingTrackInfo (VU 0 :: rest) ->
  answered (handlePacket std_registry clock dev r) r [x03; x13]
    (x00 :: repeat x00 4 ++ [x00; x04; x93; xe0] ++ [x00; x00]) h.
Proof. exact (caps_bytes clock dev r rest h). Qed.
Print Assumptions C91_track_caps.

Theorem C91_track_artwork {S} clock (dev : DeviceGeneral S) r rest h :
  asks r disp_GetIndexedPlayingTrackInfo (VU 8 :: rest) ->
  answered (handlePacket std_registry clock dev r) r [x03; x13] [x08; x08] h.
Proof. exact (artwork_bytes clock dev r rest h). Qed.
Print Assumptions C91_track_artwork.

(** The signature the device returns is the challenge itself. *)
Theorem C91_signature {S} clock (dev : DeviceGeneral S) r challenge n h :
  asks r general_GetiPodAuthenticationSignature [VArr challenge; VU n] ->
  answered (handlePacket std_registry clock dev r) r [x00; x1e] challenge h.
Proof. exact (challenge_answer clock dev r challenge n h). Qed.
Print Assumptions C91_signature.

Lemma asks_intro id t vs tr :
  id_of std_registry t = Some id -> asks (mkCmd id tr (Some (Pst t vs))) t vs.
Proof. intros H. split; [reflexivity|]. apply LingoFacts.id_of_in. exact H. Qed.

Example C91_case :
  asks (req (4 * 65536 + 28) (Pst ext_GetPlayStatus [])) ext_GetPlayStatus []
  /\ asks (req (3 * 65536 + 12) (Pst disp_GetiPodStateInfo [VU 16])) disp_GetiPodStateInfo [VU 16]
  /\ asks (req (3 * 65536 + 12) (Pst disp_GetiPodStateInfo [VU 9])) disp_GetiPodStateInfo [VU 9]
  /\ asks (req (4 * 65536 + 12) (Pst ext_GetIndexedPlayingTrackInfo [VU 3; VU 0; VU 0]))
       ext_GetIndexedPlayingTrackInfo [VU 3; VU 0; VU 0]
  /\ asks (req (3 * 65536 + 18) (Pst disp_GetIndexedPlayingTrackInfo [VU 8; VU 0; VU 0]))
       disp_GetIndexedPlayingTrackInfo [VU 8; VU 0; VU 0]
  /\ asks (req 29 (Pst general_GetiPodAuthenticationSignature [VArr (repeat x01 20); VU 0]))
       general_GetiPodAuthenticationSignature [VArr (repeat x01 20); VU 0]
  /\ date_bytes (2024, 5, 17, 12, 30)%N = [x07; xe8; x05; x11; x0c; x1e].
Proof. repeat (split; [apply asks_intro; vm_compute; reflexivity|]). reflexivity. Qed.

(** ** C92 *)

(** Asked for the state of the player in its three ways, the program says "stopped" (0), "playing"
    (1) and "paused" (2), one after the other, with any device and at any time. *)
Theorem C92_play_state {S} clock (dev : DeviceGeneral S) r1 r2 r3 vs1 vs3 h :
  asks r1 disp_GetPlayStatus vs1 -> asks r2 disp_GetiPodStateInfo [VU 3] -> asks r3 ext_GetPlayStatus vs3 ->
  post (serve (handlePacket std_registry clock dev) [r1; r2; r3]) h
    (fun _ _ evs => exists c1 c2 c3, evs = [Wrote c1; Wrote c2; Wrote c3]
       /\ on_wire c1 [x03; x10] (cmd_trx r1) ([x00] ++ repeat x00 12)
       /\ on_wire c2 [x03; x0d] (cmd_trx r2) ([x03] ++ [x01])
       /\ on_wire c3 [x04; x00; x1d] (cmd_trx r3) ([x00; x04; x93; xe0; x00; x00; x4e; x20] ++ [x02])).
Proof.
  intros A1 A2 A3.
  serve_next;
    [eapply C91_fixed; [|exact A1]; unfold fixed_answers; cbn [In]; tauto|]. intros h1 c1 W1.
  serve_next;
    [eapply C91_state; [|exact A2]; unfold state_answers; cbn [In]; tauto|]. intros h2 c2 W2.
  serve_next;
    [eapply C91_fixed; [|exact A3]; unfold fixed_answers; cbn [In]; tauto|]. intros h3 c3 W3.
  cbn [serve]. apply post_ret. exists c1, c2, c3. split; [reflexivity|].
  split; [exact W1|]. split; [exact W2|exact W3].
Qed.
Print Assumptions C92_play_state.

(** The number of tracks is 0 for the display remote and 1 for the extended remote. *)
Theorem C92_tracks {S} clock (dev : DeviceGeneral S) r1 r2 vs1 vs2 h :
  asks r1 disp_GetNumPlayingTracks vs1 -> asks r2 ext_GetNumPlayingTracks vs2 ->
  post (serve (handlePacket std_registry clock dev) [r1; r2]) h
    (fun _ _ evs => exists c1 c2, evs = [Wrote c1; Wrote c2]
       /\ on_wire c1 [x03; x15] (cmd_trx r1) [x00; x00; x00; x00]
       /\ on_wire c2 [x04; x00; x36] (cmd_trx r2) [x00; x00; x00; x01]).
Proof.
  intros A1 A2.
  serve_next;
    [eapply C91_fixed; [|exact A1]; unfold fixed_answers; cbn [In]; tauto|]. intros h1 c1 W1.
  serve_next;
    [eapply C91_fixed; [|exact A2]; unfold fixed_answers; cbn [In]; tauto|]. intros h2 c2 W2.
  cbn [serve]. apply post_ret. exists c1, c2. split; [reflexivity|]. split; [exact W1|exact W2].
Qed.
Print Assumptions C92_tracks.

(** "The number of tracks does not depend on the lingo that asks" is false of the tool's device. *)
Theorem C92_refuted :
  exists r1 r2 c1 c2 b1 b2, asks r1 disp_GetNumPlayingTracks [] /\ asks r2 ext_GetNumPlayingTracks []
    /\ outcome_of (serve (handlePacket std_registry clock0 DevGeneral_device) [r1; r2] h0) = Some ([c1; c2], [])
    /\ on_wire c1 [x03; x15] (cmd_trx r1) b1 /\ on_wire c2 [x04; x00; x36] (cmd_trx r2) b2
    /\ List.length b1 = 4 /\ List.length b2 = 4 /\ b1 <> b2.
Proof.
  exists (req (3 * 65536 + 20) (Pst disp_GetNumPlayingTracks [])),
         (req (4 * 65536 + 53) (Pst ext_GetNumPlayingTracks [])).
  eexists. eexists. exists [x00; x00; x00; x00], [x00; x00; x00; x01].
  split; [apply asks_intro; vm_compute; reflexivity|]. split; [apply asks_intro; vm_compute; reflexivity|].
  split; [vm_compute; reflexivity|].
  split; [intros [] []; vm_compute; reflexivity|]. split; [intros [] []; vm_compute; reflexivity|].
  split; [reflexivity|]. split; [reflexivity|discriminate].
Qed.
Print Assumptions C92_refuted.
