(** Specification vocabulary for the bytes of the answers about the player: which request is
    answered with which bytes.  Nothing here refers to the handlers' code. *)
From Verif Require Import Base GoTypes Types Payload Lingo Command SpecPayload SpecCommand Handlers SpecHandlers.

(** On the wire [c] is the identifier [id], the transaction [tr] if the mode has transactions, and
    then [body]; in both modes of the registry and of marshalling. *)
Definition on_wire (c : command) (id : bytes) (tr : option N) (body : bytes) : Prop :=
  forall rt e, MarshalCmd rt e c
    = Ret (e, Ok (id ++ match tr with Some t => if e then trx_bytes t else [] | None => [] end ++ body)).

(** A registered request of struct type [t] with fields [vs]. *)
Definition asks (r : command) (t : pty) (vs : list fval) : Prop :=
  is_request r t vs /\ In (cmd_id r, t) std_registry.

(** Handling [r] writes one command, the bytes [id] and [body] with the request's transaction,
    and calls no method of the device. *)
Definition answered {S} (m : act S unit) (r : command) (id body : bytes) (h : hstate S) : Prop :=
  post m h (fun h' _ evs => h_dev h' = h_dev h
    /\ exists c, evs = [Wrote c] /\ on_wire c id (cmd_trx r) body).

Definition text (s : string) : bytes := list_byte_of_string s ++ [x00].

(** Requests with one fixed answer: request, identifier of the answer, content of the answer. *)
Definition fixed_answers : list (pty * bytes * bytes) :=
  [(** general: model D..49 "MC676"; status 0; no options *)
   (general_RequestiPodModelNum, [x00; x0e], [x00; x11; x13; x49] ++ text "MC676");
   (general_RetDevAuthenticationSignature, [x00; x19], [x00]);
   (general_GetiPodOptions, [x00; x25], repeat x00 8);
   (** extended remote: chapter 0 of 1; chapter at 0 of 0 ms; speed 0; no artwork formats; one
       record; an empty record; track of 300000 ms, at 20000 ms, paused (2); track 0; texts; no
       artwork times; shuffle and repeat off; images of 640x960, format 1; one track *)
   (ext_GetCurrentPlayingTrackChapterInfo, [x04; x00; x03], [x00; x00; x00; x00; x00; x00; x00; x01]);
   (ext_GetCurrentPlayingTrackChapterPlayStatus, [x04; x00; x06], repeat x00 8);
   (ext_GetAudiobookSpeed, [x04; x00; x0a], [x00]);
   (ext_GetArtworkFormats, [x04; x00; x0f], []);
   (ext_GetNumberCategorizedDBRecords, [x04; x00; x19], [x00; x00; x00; x01]);
   (ext_RetrieveCategorizedDatabaseRecords, [x04; x00; x1b], repeat x00 20);
   (ext_GetPlayStatus, [x04; x00; x1d], [x00; x04; x93; xe0] ++ [x00; x00; x4e; x20] ++ [x02]);
   (ext_GetCurrentPlayingTrackIndex, [x04; x00; x1f], [x00; x00; x00; x00]);
   (ext_GetIndexedPlayingTrackTitle, [x04; x00; x21], text "title");
   (ext_GetIndexedPlayingTrackArtistName, [x04; x00; x23], text "artist");
   (ext_GetIndexedPlayingTrackAlbumName, [x04; x00; x25], text "album");
   (ext_GetTrackArtworkTimes, [x04; x00; x2b], []);
   (ext_GetShuffle, [x04; x00; x2d], [x00]);
   (ext_GetRepeat, [x04; x00; x30], [x00]);
   (ext_GetMonoDisplayImageLimits, [x04; x00; x34], [x02; x80; x03; xc0; x01]);
   (ext_GetNumPlayingTracks, [x04; x00; x36], [x00; x00; x00; x01]);
   (ext_GetColorDisplayImageLimits, [x04; x00; x3a], [x02; x80; x03; xc0; x01]);
   (** display remote: equalizer 0 of 1; no events; stopped (0), at track 0; no tracks; power state
       1, battery 255; sound check off *)
   (disp_GetCurrentEQProfileIndex, [x03; x02], repeat x00 4);
   (disp_GetNumEQProfiles, [x03; x05], [x00; x00; x00; x01]);
   (disp_GetRemoteEventStatus, [x03; x0b], repeat x00 4);
   (disp_GetPlayStatus, [x03; x10], repeat x00 13);
   (disp_GetNumPlayingTracks, [x03; x15], repeat x00 4);
   (disp_GetPowerBatteryState, [x03; x1b], [x01; xff]);
   (disp_GetSoundCheckState, [x03; x1d], [x00]);
   (** audio: 44100 Hz, no adjustments *)
   (audio_RetAccSampleRateCaps, [x0a; x04], [x00; x00; xac; x44] ++ repeat x00 8)].

(** Display remote, state of the player: info type and value. *)
Definition state_answers : list (N * bytes) :=
  [(0%N, repeat x00 4);                    (* position: 0 ms *)
   (1%N, [x00; x00; x00; x01]);            (* track 1 *)
   (2%N, repeat x00 8);                    (* track 0, chapters 0, chapter 0 *)
   (3%N, [x01]);                           (* playing *)
   (4%N, [x00; xff]);                      (* not muted, volume 255 *)
   (5%N, [x05; xff]);                      (* power state 5, battery 255 *)
   (6%N, repeat x00 4);                    (* equalizer 0 *)
   (7%N, [x00]); (8%N, [x00]);             (* shuffle off, repeat off *)
   (11%N, [xff]);                          (* backlight 255 *)
   (12%N, [x00]); (13%N, [x00]); (14%N, [x00]); (* hold switch, sound check, speed *)
   (15%N, [x00; x00]);                     (* position: 0 s *)
   (16%N, [x00; xff; xff])].               (* not muted, volumes 255 *)

(** Date and time as on the wire. *)
Definition date_bytes (d : datetime) : bytes :=
  let '(y, mo, da, ho, mi) := d in
  [n2b (y / 256 mod 256); n2b (y mod 256); n2b (mo mod 256); n2b (da mod 256); n2b (ho mod 256); n2b (mi mod 256)]%N.

(** Extended remote, track info: value for an info type. *)
Definition track_answer (ty : N) : bytes :=
  match ty with
  | 0 => repeat x00 4 ++ [x00; x04; x93; xe0] ++ [x00; x01]  (* no caps, 300000 ms, 1 chapter *)
  | 3 | 4 => repeat x00 4                                    (* flags, index, empty text *)
  | 7 => []                                                  (* artwork count: nothing *)
  | _ => [x00]                                               (* empty text *)
  end%N.
