(** Specification vocabulary for the handlers: runs and their events, the table of replies, UI
    mode, token and certificate histories.  Nothing here refers to the handlers' code. *)
From Verif Require Import Base GoTypes Types Payload Lingo Command SpecPayload SpecCommand Handlers.

(** ** Runs *)

(** [m], started in state [h], ends normally in [h'] with result [a], and [evs] is what it did:
    the commands written and the device methods called, in order. *)
Definition does {S A} (m : act S A) (h h' : hstate S) (a : A) (evs : list event) : Prop :=
  m h = Ret (h', a) /\ h_log h' = h_log h ++ evs.

(** [m], started in [h], ends normally (no panic), and [Q] holds of the final state, the result
    and the events. *)
Definition post {S A} (m : act S A) (h : hstate S) (Q : hstate S -> A -> list event -> Prop) : Prop :=
  exists h' a evs, does m h h' a evs /\ Q h' a evs.

(** Commands written and device methods called. *)
Definition written (evs : list event) : list command :=
  flat_map (fun e => match e with Wrote c => [c] | Called _ => [] end) evs.
Definition calls (evs : list event) : list devcall :=
  flat_map (fun e => match e with Called d => [d] | Wrote _ => [] end) evs.

(** A request whose payload has values of the declared field types, as decoding gives. *)
Definition request_ok (req : command) : Prop :=
  match cmd_payload req with Some (Pst t vs) => typed t vs | _ => True end.

(** The request carries a payload of struct type [t] with fields [vs]. *)
Definition is_request (req : command) (t : pty) (vs : list fval) : Prop :=
  cmd_payload req = Some (Pst t vs).

(** Handling a sequence of requests one after the other. *)
Fixpoint serve {S} (handle : command -> act S unit) (reqs : list command) : act S unit :=
  match reqs with
  | [] => ret tt
  | r :: rs => run _ <- handle r; serve handle rs
  end.

(** A command as it is written: registered id of the payload's type and the transaction. *)
Definition is_reply (c : command) (tr : option N) (p : payload) : Prop :=
  exists t, payload_type p = Some t /\ In (cmd_id c, t) std_registry
            /\ cmd_trx c = tr /\ cmd_payload c = Some p.

(** Struct type of a command's payload. *)
Definition reply_type (c : command) : option pty :=
  match cmd_payload c with Some p => payload_type p | None => None end.

(** ** Acknowledgements *)

(** The command id inside an acknowledgement. *)
Definition acked (c : command) : option N :=
  match cmd_payload c with
  | Some (Pst general_ACK [_; VU n]) => Some n
  | Some (Pst general_ACKPending [_; VU n; _]) => Some n
  | Some (Pst disp_ACK [_; VU n]) => Some n
  | Some (Pst ext_ACK [_; VU n]) => Some n
  | _ => None
  end.

Definition ack_types : list pty := [general_ACK; general_ACKPending; disp_ACK; ext_ACK].

(** Every acknowledgement among the commands written names command [n]. *)
Definition acks_ok (n : N) (evs : list event) : Prop :=
  Forall (fun c => forall t, reply_type c = Some t -> In t ack_types -> acked c = Some n) (written evs).

(** The general lingo's acknowledgements: done, and pending for up to 300 ms. *)
Definition success_ack (req : command) : payload := Pst general_ACK [VU 0; VU (cmd_id req mod 65536 mod 256)]%N.
Definition pending_ack (req : command) : payload :=
  Pst general_ACKPending [VU 6; VU (cmd_id req mod 65536 mod 256); VU 300]%N.

(** The one command of the handlers that is not a reply: it takes the next transaction number. *)
Definition next_auth {S} (h : hstate S) (c : command) : Prop :=
  is_reply c (Some ((h_trx h + 1) mod 2 ^ 32 mod 65536)%N) (Pst general_GetDevAuthenticationInfo []).

(** ** Start of the audio lingo *)

(** A general message that is the first version's, or the last section of the second version's,
    authentication information. *)
Definition starts_audio (req : command) : bool :=
  (cmd_id req / 65536 mod 256 =? 0)%N &&
  match cmd_payload req with
  | Some (Pst general_RetDevAuthenticationInfo [VU major; _; VU n; VU last; _]) =>
      (major <? 2) || (last <=? n)
  | _ => false
  end%N.

Definition no_audio_start (evs : list event) : Prop :=
  Forall (fun c => reply_type c <> Some audio_GetAccSampleRateCaps) (written evs).

(** ** Table of replies *)

(** Requests of the general lingo with one fixed list of replies. *)
Definition general_rows : list (pty * list pty) :=
  [(general_RequestRemoteUIMode, [general_ReturnRemoteUIMode]);
   (general_RequestiPodName, [general_ReturniPodName]);
   (general_RequestiPodSoftwareVersion, [general_ReturniPodSoftwareVersion]);
   (general_RequestiPodSerialNum, [general_ReturniPodSerialNum]);
   (general_RequestiPodModelNum, [general_ReturniPodModelNum]);
   (general_RequestLingoProtocolVersion, [general_ReturnLingoProtocolVersion]);
   (general_RequestTransportMaxPayloadSize, [general_ReturnTransportMaxPayloadSize]);
   (general_RetDevAuthenticationSignature, [general_AckDevAuthenticationStatus]);
   (general_GetiPodAuthenticationInfo, [general_RetiPodAuthenticationInfo]);
   (general_GetiPodAuthenticationSignature, [general_RetiPodAuthenticationSignature]);
   (general_GetiPodOptions, [general_RetiPodOptions]);
   (general_GetiPodPreferences, [general_RetiPodPreferences]);
   (general_SetiPodPreferences, [general_ACK]);
   (general_GetUIMode, [general_RetUIMode]);
   (general_SetUIMode, [general_ACK]);
   (general_StartIDPS, [general_ACK]);
   (general_SetFIDTokenValues, [general_RetFIDTokenValueACKs]);
   (general_SetEventNotification, [general_ACK]);
   (general_GetiPodOptionsForLingo, [general_RetiPodOptionsForLingo]);
   (general_GetEventNotification, [general_RetEventNotification]);
   (general_GetSupportedEventNotification, [general_RetSupportedEventNotification]);
   (general_CancelCommand, [general_ACK]);
   (general_RequestApplicationLaunch, [general_ACK]);
   (general_GetNowPlayingFocusApp, [general_RetNowPlayingFocusApp])].

Definition ext_rows : list (pty * list pty) :=
  [(ext_GetCurrentPlayingTrackChapterInfo, [ext_ReturnCurrentPlayingTrackChapterInfo]);
   (ext_SetCurrentPlayingTrackChapter, [ext_ACK]);
   (ext_GetCurrentPlayingTrackChapterPlayStatus, [ext_ReturnCurrentPlayingTrackChapterPlayStatus]);
   (ext_GetCurrentPlayingTrackChapterName, [ext_ReturnCurrentPlayingTrackChapterName]);
   (ext_GetAudiobookSpeed, [ext_ReturnAudiobookSpeed]);
   (ext_SetAudiobookSpeed, [ext_ACK]);
   (ext_GetIndexedPlayingTrackInfo, [ext_ReturnIndexedPlayingTrackInfo]);
   (ext_GetArtworkFormats, [ext_RetArtworkFormats]);
   (ext_GetTrackArtworkData, [ext_ACK]);
   (ext_ResetDBSelection, [ext_ACK]);
   (ext_SelectDBRecord, [ext_ACK]);
   (ext_GetNumberCategorizedDBRecords, [ext_ReturnNumberCategorizedDBRecords]);
   (ext_RetrieveCategorizedDatabaseRecords, [ext_ReturnCategorizedDatabaseRecord]);
   (ext_GetPlayStatus, [ext_ReturnPlayStatus]);
   (ext_GetCurrentPlayingTrackIndex, [ext_ReturnCurrentPlayingTrackIndex]);
   (ext_GetIndexedPlayingTrackTitle, [ext_ReturnIndexedPlayingTrackTitle]);
   (ext_GetIndexedPlayingTrackArtistName, [ext_ReturnIndexedPlayingTrackArtistName]);
   (ext_GetIndexedPlayingTrackAlbumName, [ext_ReturnIndexedPlayingTrackAlbumName]);
   (ext_SetPlayStatusChangeNotification, [ext_ACK]);
   (ext_SetPlayStatusChangeNotificationShort, [ext_ACK]);
   (ext_PlayCurrentSelection, [ext_ACK]);
   (ext_PlayControl, [ext_ACK]);
   (ext_GetTrackArtworkTimes, [ext_RetTrackArtworkTimes]);
   (ext_GetShuffle, [ext_ReturnShuffle]);
   (ext_SetShuffle, [ext_ACK]);
   (ext_GetRepeat, [ext_ReturnRepeat]);
   (ext_SetRepeat, [ext_ACK]);
   (ext_SetDisplayImage, [ext_ACK]);
   (ext_GetMonoDisplayImageLimits, [ext_ReturnMonoDisplayImageLimits]);
   (ext_GetNumPlayingTracks, [ext_ReturnNumPlayingTracks]);
   (ext_GetColorDisplayImageLimits, [ext_ReturnColorDisplayImageLimits]);
   (ext_ResetDBSelectionHierarchy, [ext_ACK])].

Definition disp_rows : list (pty * list pty) :=
  [(disp_GetCurrentEQProfileIndex, [disp_RetCurrentEQProfileIndex]);
   (disp_SetCurrentEQProfileIndex, [disp_ACK]);
   (disp_GetNumEQProfiles, [disp_RetNumEQProfiles]);
   (disp_GetIndexedEQProfileName, [disp_RetIndexedEQProfileName]);
   (disp_SetRemoteEventNotification, [disp_ACK]);
   (disp_GetRemoteEventStatus, [disp_RetRemoteEventStatus]);
   (disp_SetiPodStateInfo, [disp_ACK]);
   (disp_GetPlayStatus, [disp_RetPlayStatus]);
   (disp_SetCurrentPlayingTrack, [disp_ACK]);
   (disp_GetNumPlayingTracks, [disp_RetNumPlayingTracks]);
   (disp_GetArtworkFormats, [disp_RetArtworkFormats]);
   (disp_GetPowerBatteryState, [disp_RetPowerBatteryState]);
   (disp_GetSoundCheckState, [disp_RetSoundCheckState]);
   (disp_SetSoundCheckState, [disp_ACK]);
   (disp_GetTrackArtworkTimes, [disp_RetTrackArtworkTimes])].

Definition audio_rows : list (pty * list pty) :=
  [(audio_RetAccSampleRateCaps, [audio_TrackNewAudioAttributes])].

Fixpoint row (rows : list (pty * list pty)) (t : pty) : list pty :=
  match rows with
  | [] => []
  | (u, l) :: rows' => if pty_eqb t u then l else row rows' t
  end.

(** Types of the replies to a request; [extended] tells whether the device is in extended mode
    when the request arrives. *)
Definition general_replies (extended : bool) (p : option payload) : list pty :=
  match p with
  | Some (PUnknown _) => [general_ACK]
  | Some (Pst general_EnterRemoteUIMode _) =>
      if extended then [general_ACK] else [general_ACKPending; general_ACK]
  | Some (Pst general_ExitRemoteUIMode _) =>
      if extended then [general_ACKPending; general_ACK] else [general_ACK]
  | Some (Pst general_IdentifyDeviceLingoes [_; _; VU device]) =>
      if (device =? 0)%N then [general_ACK] else [general_ACK; general_GetDevAuthenticationInfo]
  | Some (Pst general_RetDevAuthenticationInfo [VU major; _; VU section; VU last; _]) =>
      if (major <? 2)%N then [general_AckDevAuthenticationInfo]
      else if (section <? last)%N then [general_ACK]
      else [general_AckDevAuthenticationInfo; general_GetDevAuthenticationSignatureV2]
  | Some (Pst general_EndIDPS [VU status]) =>
      if (status =? 0)%N then [general_IDPSStatus; general_GetDevAuthenticationInfo]
      else if (status <=? 2)%N then [general_IDPSStatus]
      else []
  | Some p => match payload_type p with Some t => row general_rows t | None => [] end
  | None => []
  end.

Definition simple_replies (rows : list (pty * list pty)) (p : option payload) : list pty :=
  match p with
  | Some p => match payload_type p with Some t => row rows t | None => [] end
  | None => []
  end.

(** Display remote: 16 of the info types 0..16 (not 10, the alarm) and the track info types 0..8
    are answered. *)
Definition disp_replies (p : option payload) : list pty :=
  match p with
  | Some (Pst disp_GetiPodStateInfo [VU ty]) =>
      if (ty <=? 16)%N && negb (ty =? 10)%N then [disp_RetiPodStateInfo] else []
  | Some (Pst disp_GetIndexedPlayingTrackInfo (VU ty :: _)) =>
      if (ty <=? 8)%N then [disp_RetIndexedPlayingTrackInfo] else []
  | _ => simple_replies disp_rows p
  end.

(** Replies that have no wire form at all. *)
Definition unsendable_replies : list pty :=
  [general_RetiPodAuthenticationInfo; general_RetNowPlayingFocusApp;
   ext_ReturnCurrentPlayingTrackChapterName; disp_RetIndexedEQProfileName;
   disp_RetArtworkFormats; disp_RetTrackArtworkTimes].

(** The command can be marshalled. *)
Definition marshals (rt e : bool) (c : command) : Prop :=
  exists e' b, MarshalCmd rt e c = Ret (e', Ok b).
(** Marshalling it gives an error. *)
Definition marshal_fails (rt e : bool) (c : command) : Prop :=
  exists e' x, MarshalCmd rt e c = Ret (e', Err x).

(** The ack of some token is missing. *)
Definition missing_ack (c : command) : Prop :=
  exists l a, cmd_payload c = Some (PTokenAcks l) /\ In a l /\ ta_ack a = None.

Definition unsendable (c : command) : Prop :=
  (exists t, reply_type c = Some t /\ In t unsendable_replies) \/ missing_ack c.

(** The written commands are replies of the types [ts], each under its registered id. *)
Definition of_types (cs : list command) (ts : list pty) : Prop :=
  Forall2 (fun c t => In (cmd_id c, t) std_registry /\ reply_type c = Some t) cs ts.

(** ** Devices *)

(** The device's answers in state [s] are values of their Go types. *)
Definition answers_ok {S} (dev : DeviceGeneral S) (s : S) : Prop :=
    u8 (snd (dev_UIMode dev s))
    /\ (let '(a, b, c) := snd (dev_SoftwareVersion dev s) in u8 a /\ u8 b /\ u8 c)
    /\ (forall l, let '(a, b) := snd (dev_LingoProtocolVersion dev s l) in u8 a /\ u8 b)
    /\ (forall l, snd (dev_LingoOptions dev s l) < 2 ^ 64)%N
    /\ (forall l, u8 (snd (dev_PrefSettingID dev s l)))
    /\ (snd (dev_EventNotificationMask dev s) < 2 ^ 64)%N
    /\ (snd (dev_SupportedEventNotificationMask dev s) < 2 ^ 64)%N
    /\ u16 (snd (dev_MaxPayload dev s)).

(** ** UI mode *)

(** [mode] describes a device that keeps the mode it was last given, and changes it for no other
    reason. *)
Definition keeps_mode {S} (dev : DeviceGeneral S) (mode : S -> N) : Prop :=
  (forall s, snd (dev_UIMode dev s) = mode s /\ mode (fst (dev_UIMode dev s)) = mode s)
  /\ (forall s m, mode (dev_SetUIMode dev s m) = m)
  /\ (forall s, mode (fst (dev_Name dev s)) = mode s)
  /\ (forall s, mode (fst (dev_SoftwareVersion dev s)) = mode s)
  /\ (forall s, mode (fst (dev_SerialNum dev s)) = mode s)
  /\ (forall s l, mode (fst (dev_LingoProtocolVersion dev s l)) = mode s)
  /\ (forall s l, mode (fst (dev_LingoOptions dev s l)) = mode s)
  /\ (forall s l, mode (fst (dev_PrefSettingID dev s l)) = mode s)
  /\ (forall s a b c, mode (dev_SetPrefSettingID dev s a b c) = mode s)
  /\ (forall s, mode (dev_StartIDPS dev s) = mode s)
  /\ (forall s x, mode (dev_EndIDPS dev s x) = mode s)
  /\ (forall s t, mode (fst (dev_SetToken dev s t)) = mode s)
  /\ (forall s x, mode (dev_AccAuthCert dev s x) = mode s)
  /\ (forall s x, mode (dev_SetEventNotificationMask dev s x) = mode s)
  /\ (forall s, mode (fst (dev_EventNotificationMask dev s)) = mode s)
  /\ (forall s, mode (fst (dev_SupportedEventNotificationMask dev s)) = mode s)
  /\ (forall s a b c, mode (dev_CancelCommand dev s a b c) = mode s)
  /\ (forall s, mode (fst (dev_MaxPayload dev s)) = mode s).

(** Whether the last Enter/Exit request of the history was Enter; [init] if there is none. *)
Fixpoint entered (init : bool) (reqs : list command) : bool :=
  match reqs with
  | [] => init
  | r :: rs => entered (match cmd_payload r with
                        | Some (Pst general_EnterRemoteUIMode _) => true
                        | Some (Pst general_ExitRemoteUIMode _) => false
                        | _ => init
                        end) rs
  end.

(** ** Tokens *)

(** The tokens of all SetFIDTokenValues after the last StartIDPS, in order. *)
Fixpoint tokens_since_start (known : list token_value) (reqs : list command) : list token_value :=
  match reqs with
  | [] => known
  | r :: rs => tokens_since_start (match cmd_payload r with
                                   | Some (Pst general_StartIDPS _) => []
                                   | Some (PTokens l) => known ++ l
                                   | _ => known
                                   end) rs
  end.

(** Content of the acknowledgement of a token: a zero, followed by the info type, preference
    class or protocol index for the three kinds of token that have one. *)
Definition ack_content (t : token) (b : bytes) : Prop :=
  match t with
  | TokAccInfo ty _ => b = [x00; n2b ty]
  | TokEAProtocol i _ => b = [x00; n2b i]
  | TokStruct general_FIDiPodPreferenceToken (VU class :: _) => b = [x00; n2b class]
  | _ => b = [x00]
  end.

(** ** Certificates *)

(** Section number, last section number and data of a version 2 authentication message. *)
Definition section (r : command) : option (N * N * bytes) :=
  match cmd_payload r with
  | Some (Pst general_RetDevAuthenticationInfo [VU major; _; VU n; VU last; VBytes data]) =>
      if (2 <=? major)%N then Some (n, last, data) else None
  | _ => None
  end.

(** The certificate bytes of the sections of a history. *)
Definition sections_data (reqs : list command) : bytes :=
  flat_map (fun r => match section r with Some (_, _, d) => d | None => [] end) reqs.

(** The sections of a history, in order. *)
Definition sections (reqs : list command) : list (N * N * bytes) :=
  flat_map (fun r => match section r with Some x => [x] | None => [] end) reqs.

(** Sections 0..last of a certificate given by the data of each. *)
Definition whole_certificate (ds : list bytes) : list (N * N * bytes) :=
  map (fun '(i, d) => (N.of_nat i, len ds - 1, d)%N) (combine (List.seq 0 (List.length ds)) ds).

Definition first_section (r : command) : Prop := exists last d, section r = Some (0%N, last, d).

Definition certs (evs : list event) : list bytes :=
  flat_map (fun d => match d with CAccAuthCert c => [c] | _ => [] end) (calls evs).

(** ** What the device is asked and told *)

(** The reply to a getter, given the device's state. *)
Inductive device_answer {S} (dev : DeviceGeneral S) (s : S) (r : command) : payload -> Prop :=
| da_name vs : is_request r general_RequestiPodName vs ->
    device_answer dev s r (Pst general_ReturniPodName [VBytes (snd (dev_Name dev s) ++ [x00])])
| da_serial vs : is_request r general_RequestiPodSerialNum vs ->
    device_answer dev s r (Pst general_ReturniPodSerialNum [VBytes (snd (dev_SerialNum dev s) ++ [x00])])
| da_software vs major minor rev : is_request r general_RequestiPodSoftwareVersion vs ->
    snd (dev_SoftwareVersion dev s) = (major, minor, rev) ->
    device_answer dev s r (Pst general_ReturniPodSoftwareVersion [VU major; VU minor; VU rev])
| da_version l major minor : is_request r general_RequestLingoProtocolVersion [VU l] ->
    snd (dev_LingoProtocolVersion dev s l) = (major, minor) ->
    device_answer dev s r (Pst general_ReturnLingoProtocolVersion [VU l; VU major; VU minor])
| da_max vs : is_request r general_RequestTransportMaxPayloadSize vs ->
    device_answer dev s r (Pst general_ReturnTransportMaxPayloadSize [VU (snd (dev_MaxPayload dev s))])
| da_pref c : is_request r general_GetiPodPreferences [VU c] ->
    device_answer dev s r (Pst general_RetiPodPreferences [VU c; VU (snd (dev_PrefSettingID dev s c))])
| da_mode vs : is_request r general_GetUIMode vs ->
    device_answer dev s r (Pst general_RetUIMode [VU (snd (dev_UIMode dev s))])
| da_options l : is_request r general_GetiPodOptionsForLingo [VU l] ->
    device_answer dev s r (Pst general_RetiPodOptionsForLingo [VU l; VU (snd (dev_LingoOptions dev s l))])
| da_events vs : is_request r general_GetEventNotification vs ->
    device_answer dev s r (Pst general_RetEventNotification [VU (snd (dev_EventNotificationMask dev s))])
| da_supported vs : is_request r general_GetSupportedEventNotification vs ->
    device_answer dev s r
      (Pst general_RetSupportedEventNotification [VU (snd (dev_SupportedEventNotificationMask dev s))]).

(** All the calls a request makes on the device, in order. [extended] is as for
    [general_replies]; [cert] the certificate received so far. *)
Definition device_calls (extended : bool) (cert : bytes) (p : option payload) : list devcall :=
  match p with
  | Some (PTokens l) => map CSetToken l
  | Some (Pst t vs) =>
      match t, vs with
      | general_RequestRemoteUIMode, _ | general_GetUIMode, _ => [CUIMode]
      | general_EnterRemoteUIMode, _ => CUIMode :: (if extended then [] else [CSetUIMode 1])
      | general_ExitRemoteUIMode, _ => CUIMode :: (if extended then [CSetUIMode 0] else [])
      | general_RequestiPodName, _ => [CName]
      | general_RequestiPodSoftwareVersion, _ => [CSoftwareVersion]
      | general_RequestiPodSerialNum, _ => [CSerialNum]
      | general_RequestLingoProtocolVersion, [VU l] => [CLingoProtocolVersion l]
      | general_RequestTransportMaxPayloadSize, _ => [CMaxPayload]
      | general_RetDevAuthenticationInfo, [VU major; _; VU n; VU last; VBytes d] =>
          if ((2 <=? major) && (last <=? n))%N
          then [CAccAuthCert (if (n =? 0)%N then d else cert ++ d)] else []
      | general_GetiPodPreferences, [VU c] => [CPrefSettingID c]
      | general_SetiPodPreferences, [VU c; VU s; VU restore] => [CSetPrefSettingID c s (restore =? 1)%N]
      | general_StartIDPS, _ => [CStartIDPS]
      | general_EndIDPS, [VU s] => [CEndIDPS s]
      | general_SetEventNotification, [VU m] => [CSetEventNotificationMask m]
      | general_GetiPodOptionsForLingo, [VU l] => [CLingoOptions l]
      | general_GetEventNotification, _ => [CEventNotificationMask]
      | general_GetSupportedEventNotification, _ => [CSupportedEventNotificationMask]
      | general_CancelCommand, [VU l; VU c; VU tr] => [CCancelCommand l c tr]
      | _, _ => []
      end
  | _ => []
  end.

(** What a call does to the device's state. *)
Definition after_call {S} (dev : DeviceGeneral S) (s : S) (d : devcall) : S :=
  match d with
  | CUIMode => fst (dev_UIMode dev s)
  | CSetUIMode m => dev_SetUIMode dev s m
  | CName => fst (dev_Name dev s)
  | CSoftwareVersion => fst (dev_SoftwareVersion dev s)
  | CSerialNum => fst (dev_SerialNum dev s)
  | CLingoProtocolVersion l => fst (dev_LingoProtocolVersion dev s l)
  | CLingoOptions l => fst (dev_LingoOptions dev s l)
  | CPrefSettingID c => fst (dev_PrefSettingID dev s c)
  | CSetPrefSettingID c v restore => dev_SetPrefSettingID dev s c v restore
  | CStartIDPS => dev_StartIDPS dev s
  | CEndIDPS st => dev_EndIDPS dev s st
  | CSetToken t => fst (dev_SetToken dev s t)
  | CAccAuthCert c => dev_AccAuthCert dev s c
  | CSetEventNotificationMask m => dev_SetEventNotificationMask dev s m
  | CEventNotificationMask => fst (dev_EventNotificationMask dev s)
  | CSupportedEventNotificationMask => fst (dev_SupportedEventNotificationMask dev s)
  | CCancelCommand l c tr => dev_CancelCommand dev s l c tr
  | CMaxPayload => fst (dev_MaxPayload dev s)
  end.

(** ** Status of acknowledgements *)

(** Status of the acknowledgement of a request: refused as unknown (5), failed (2), else done. *)
Definition request_status (p : option payload) : N :=
  match p with
  | Some (PUnknown _) => 5
  | Some (Pst general_RequestApplicationLaunch _) | Some (Pst ext_GetTrackArtworkData _)
  | Some (Pst ext_ResetDBSelectionHierarchy _) => 2
  | _ => 0
  end%N.

(** The status inside an acknowledgement; "pending" promises an answer within 300 ms. *)
Definition acked_as (status : N) (c : command) : Prop :=
  match cmd_payload c with
  | Some (Pst general_ACK vs) | Some (Pst disp_ACK vs) | Some (Pst ext_ACK vs) =>
      exists n, vs = [VU status; VU n]
  | Some (Pst general_ACKPending vs) => exists n, vs = [VU 6; VU n; VU 300]%N
  | _ => True
  end.
