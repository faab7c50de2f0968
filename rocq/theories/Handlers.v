(** Model of the lingo handlers: lingo-general/handler.go, lingo-extremote/handler.go,
    lingo-dispremote/handler.go, lingo-audio/handler.go, and of the device and dispatcher of
    cmd/ipod (general.go, main.go:386-408). *)
From Verif Require Import Base GoTypes Types Payload Util Lingo Command.

(** ** The device behind the general lingo *)

(** lingo-general/handler.go:9-34 [DeviceGeneral], over an arbitrary state type.  Every method,
    getters included, may change the state; simplification: methods return (no panic, no
    blocking).  The order of fields is that of the interface. *)
Record DeviceGeneral (S : Type) := mkDevice {
  dev_UIMode : S -> S * N;
  dev_SetUIMode : S -> N -> S;
  dev_Name : S -> S * bytes;
  dev_SoftwareVersion : S -> S * (N * N * N);
  dev_SerialNum : S -> S * bytes;
  dev_LingoProtocolVersion : S -> N -> S * (N * N);
  dev_LingoOptions : S -> N -> S * N;
  dev_PrefSettingID : S -> N -> S * N;
  dev_SetPrefSettingID : S -> N -> N -> bool -> S;
  dev_StartIDPS : S -> S;
  dev_EndIDPS : S -> N -> S;
  dev_SetToken : S -> token_value -> S * option goerr;
  dev_AccAuthCert : S -> bytes -> S;
  dev_SetEventNotificationMask : S -> N -> S;
  dev_EventNotificationMask : S -> S * N;
  dev_SupportedEventNotificationMask : S -> S * N;
  dev_CancelCommand : S -> N -> N -> N -> S;
  dev_MaxPayload : S -> S * N
}.
Arguments dev_UIMode {S}. Arguments dev_SetUIMode {S}. Arguments dev_Name {S}.
Arguments dev_SoftwareVersion {S}. Arguments dev_SerialNum {S}.
Arguments dev_LingoProtocolVersion {S}. Arguments dev_LingoOptions {S}.
Arguments dev_PrefSettingID {S}. Arguments dev_SetPrefSettingID {S}.
Arguments dev_StartIDPS {S}. Arguments dev_EndIDPS {S}. Arguments dev_SetToken {S}.
Arguments dev_AccAuthCert {S}. Arguments dev_SetEventNotificationMask {S}.
Arguments dev_EventNotificationMask {S}. Arguments dev_SupportedEventNotificationMask {S}.
Arguments dev_CancelCommand {S}. Arguments dev_MaxPayload {S}.

(** One call of a device method, with its arguments. *)
Inductive devcall : Type :=
| CUIMode
| CSetUIMode (m : N)
| CName
| CSoftwareVersion
| CSerialNum
| CLingoProtocolVersion (lingo : N)
| CLingoOptions (lingo : N)
| CPrefSettingID (class : N)
| CSetPrefSettingID (class setting : N) (restore : bool)
| CStartIDPS
| CEndIDPS (status : N)
| CSetToken (t : token_value)
| CAccAuthCert (cert : bytes)
| CSetEventNotificationMask (mask : N)
| CEventNotificationMask
| CSupportedEventNotificationMask
| CCancelCommand (lingo cmd trx : N)
| CMaxPayload.

(** What a handler does that its surroundings can see, in order. *)
Inductive event : Type :=
| Wrote (c : command)       (** CommandWriter.WriteCommand *)
| Called (d : devcall).     (** a device method *)

(** ** State and sequencing *)

(** The wall clock read by time.Now (dispremote/handler.go:75): year, month, day, hour, minute.
    The n-th reading is [clock n]. *)
Definition datetime : Type := N * N * N * N * N.

(** State threaded through the handlers: the device, the package variable [accCertBuf]
    (general/handler.go:91), the transaction counter (cmd.go:187), the number of clock readings
    and the log of events.  Simplification: handlers run one at a time (main.go runs one
    processFrames). *)
Record hstate (S : Type) := mkH {
  h_dev : S;
  h_cert : bytes;
  h_trx : N;
  h_ticks : nat;
  h_log : list event
}.
Arguments mkH {S}. Arguments h_dev {S}. Arguments h_cert {S}. Arguments h_trx {S}.
Arguments h_ticks {S}. Arguments h_log {S}.

(** Go statements on that state. *)
Definition act (S A : Type) : Type := hstate S -> outcome (hstate S * A).

Definition ret {S A} (a : A) : act S A := fun h => Ret (h, a).
Definition seq {S A B} (m : act S A) (k : A -> act S B) : act S B :=
  fun h => do (h', a) <- m h; k a h'.
Notation "'run' x <- m ; k" := (seq m (fun x => k))
  (at level 200, x pattern, m at level 100, k at level 200).

Definition log {S} (h : hstate S) (evs : list event) : hstate S :=
  mkH (h_dev h) (h_cert h) (h_trx h) (h_ticks h) (h_log h ++ evs).

(** A device method that returns a value. *)
Definition ask {S A} (c : devcall) (m : S -> S * A) : act S A :=
  fun h => let '(d, a) := m (h_dev h) in
           Ret (mkH d (h_cert h) (h_trx h) (h_ticks h) (h_log h ++ [Called c]), a).
(** A device method without result. *)
Definition tell {S} (c : devcall) (m : S -> S) : act S unit :=
  fun h => Ret (mkH (m (h_dev h)) (h_cert h) (h_trx h) (h_ticks h) (h_log h ++ [Called c]), tt).
(** [ipod.Respond(req, tr, p)] with a writer that accepts every command (cmd.go:177-185,
    209-213). *)
Definition respond {S} (reg : registry) (req : command) (p : payload) : act S unit :=
  fun h => do cs <- Respond reg req p; Ret (log h (map Wrote cs), tt).
(** [ipod.Send(tr, p)] (cmd.go:197-204). *)
Definition send {S} (reg : registry) (p : payload) : act S unit :=
  fun h => do (c, cs) <- Send reg (h_trx h) p;
           Ret (mkH (h_dev h) (h_cert h) c (h_ticks h) (h_log h ++ map Wrote cs), tt).
(** [ipod.TrxReset()] (cmd.go:189-191). *)
Definition trx_reset {S} : act S unit :=
  fun h => Ret (mkH (h_dev h) (h_cert h) (TrxReset (h_trx h)) (h_ticks h) (h_log h), tt).
(** [accCertBuf.Reset()] and [accCertBuf.Write(data)]. *)
Definition cert_reset {S} : act S unit :=
  fun h => Ret (mkH (h_dev h) [] (h_trx h) (h_ticks h) (h_log h), tt).
Definition cert_write {S} (data : bytes) : act S unit :=
  fun h => Ret (mkH (h_dev h) (h_cert h ++ data) (h_trx h) (h_ticks h) (h_log h), tt).
(** [accCertBuf.Bytes()]; the slice is only looked at during the call it is passed to. *)
Definition cert_bytes {S} : act S bytes := fun h => Ret (h, h_cert h).
(** [time.Now()]. *)
Definition now {S} (clock : nat -> datetime) : act S datetime :=
  fun h => Ret (mkH (h_dev h) (h_cert h) (h_trx h) (h_ticks h + 1) (h_log h), clock (h_ticks h)).

(** ** Fields of a decoded request *)
Definition fu (vs : list fval) (i : nat) : N := match nth i vs VBlank with VU n => n | _ => 0%N end.
Definition fb (vs : list fval) (i : nat) : bytes := match nth i vs VBlank with VBytes b => b | _ => [] end.
Definition fa (vs : list fval) (i : nat) : bytes := match nth i vs VBlank with VArr b => b | _ => [] end.

(** ** lingo-general/handler.go *)

Definition UIModeStandart : N := 0.          (* general.go:423 *)
Definition UIModeExtended : N := 1.          (* general.go:424 *)
Definition ACKStatusSuccess : N := 0.        (* general.go:102 *)
Definition ACKStatusFailed : N := 2.         (* general.go:103 *)
Definition ACKStatusUnkownID : N := 5.       (* general.go:104 *)
Definition ACKStatusPending : N := 6.        (* general.go:105 *)

(** [uint8(req.ID.CmdID())]. *)
Definition cmd8 (req : command) : N := (CmdID (cmd_id req) mod 256)%N.

(** general/handler.go:36-46. *)
Definition ack (req : command) (status : N) : payload := Pst general_ACK [VU status; VU (cmd8 req)].
Definition ackSuccess (req : command) : payload := Pst general_ACK [VU ACKStatusSuccess; VU (cmd8 req)].
Definition ackPending (req : command) (maxWait : N) : payload :=
  Pst general_ACKPending [VU ACKStatusPending; VU (cmd8 req); VU maxWait].

(** general/handler.go:49-73, the closure [ackToken]; [None] is nil. *)
Definition ackToken (t : token) : option bytes :=
  match t with
  | TokIdentify _ _ _ => Some [x00]                                     (* 51-52 *)
  | TokAccInfo ty _ => Some [x00; n2b ty]                               (* 55-56 *)
  | TokEAProtocol i _ => Some [x00; n2b i]                              (* 59-60 *)
  | TokStruct ty vs =>
      match ty with
      | general_FIDAccCapsToken => Some [x00]                           (* 53-54 *)
      | general_FIDiPodPreferenceToken => Some [x00; n2b (fu vs 0)]     (* 57-58 *)
      | general_FIDBundleSeedIDPrefToken => Some [x00]                  (* 61-62 *)
      | general_FIDScreenInfoToken => Some [x00]                        (* 63-64 *)
      | general_FIDEAProtocolMetadataToken => Some [x00]                (* 65-66 *)
      | general_FIDMicrophoneCapsToken => Some [x00]                    (* 67-68 *)
      | _ => None                                                       (* 69-70 *)
      end
  | TokNil | TokRaw _ => None                                           (* 69-70 *)
  end.

(** general/handler.go:48-79 [ackFIDTokenValue]. *)
Definition ackFIDTokenValue (v : token_value) : token_ack :=
  mkTA (tv_type v) (tv_sub v) (ackToken (tv_token v)).

(** general/handler.go:81-89 [ackFIDTokenValues]. *)
Definition ackFIDTokenValues (l : list token_value) : payload := PTokenAcks (map ackFIDTokenValue l).

(** general/handler.go:215-217: [dev.SetToken] for every token, errors ignored. *)
Fixpoint set_tokens {S} (dev : DeviceGeneral S) (l : list token_value) : act S unit :=
  match l with
  | [] => ret tt
  | t :: l' =>
      run _ <- ask (CSetToken t) (fun s => dev_SetToken dev s t);
      set_tokens dev l'
  end.

(** general/handler.go:93-278 [HandleGeneral]; it always returns nil. *)
Definition HandleGeneral {S} (reg : registry) (dev : DeviceGeneral S) (req : command) : act S unit :=
  let reply := @respond S reg req in
  let get_mode := ask CUIMode (dev_UIMode dev) in
  let set_mode m := tell (CSetUIMode m) (fun s => dev_SetUIMode dev s m) in
  match cmd_payload req with
  | None => ret tt                                                      (* 274 *)
  | Some (Pst t msg) =>
      match t with
      | general_RequestRemoteUIMode =>                                  (* 95-98 *)
          run m <- get_mode;
          reply (Pst general_ReturnRemoteUIMode [VU (BoolToByte (m =? UIModeExtended)%N)])
      | general_EnterRemoteUIMode =>                                    (* 99-106 *)
          run m <- get_mode;
          if (m =? UIModeExtended)%N then reply (ackSuccess req)
          else run _ <- reply (ackPending req 300);
               run _ <- set_mode UIModeExtended;
               reply (ackSuccess req)
      | general_ExitRemoteUIMode =>                                     (* 107-114 *)
          run m <- get_mode;
          if negb (m =? UIModeExtended)%N then reply (ackSuccess req)
          else run _ <- reply (ackPending req 300);
               run _ <- set_mode UIModeStandart;
               reply (ackSuccess req)
      | general_RequestiPodName =>                                      (* 115-116 *)
          run name <- ask CName (dev_Name dev);
          reply (Pst general_ReturniPodName [VBytes (StringToBytes name)])
      | general_RequestiPodSoftwareVersion =>                           (* 117-120 *)
          run (major, minor, rev) <- ask CSoftwareVersion (dev_SoftwareVersion dev);
          reply (Pst general_ReturniPodSoftwareVersion [VU major; VU minor; VU rev])
      | general_RequestiPodSerialNum =>                                 (* 121-122 *)
          run serial <- ask CSerialNum (dev_SerialNum dev);
          reply (Pst general_ReturniPodSerialNum [VBytes (StringToBytes serial)])
      | general_RequestiPodModelNum =>                                  (* 123-128 *)
          reply (Pst general_ReturniPodModelNum [VU 1119049; VBytes (StringToBytes (lit "MC676"))])
      | general_RequestLingoProtocolVersion =>                          (* 129-133 *)
          run (major, minor) <- ask (CLingoProtocolVersion (fu msg 0))
                                    (fun s => dev_LingoProtocolVersion dev s (fu msg 0));
          reply (Pst general_ReturnLingoProtocolVersion [VU (fu msg 0); VU major; VU minor])
      | general_RequestTransportMaxPayloadSize =>                       (* 134-135 *)
          run max <- ask CMaxPayload (dev_MaxPayload dev);
          reply (Pst general_ReturnTransportMaxPayloadSize [VU max])
      | general_IdentifyDeviceLingoes =>                                (* 136-141 *)
          run _ <- reply (ackSuccess req);
          if (fu msg 2 =? 0)%N then ret tt
          else reply (Pst general_GetDevAuthenticationInfo [])
      | general_RetDevAuthenticationInfo =>                             (* 144-159 *)
          if (2 <=? fu msg 0)%N then
            run _ <- (if (fu msg 2 =? 0)%N then cert_reset else ret tt);
            run _ <- cert_write (fb msg 4);
            if (fu msg 2 <? fu msg 3)%N then reply (ackSuccess req)
            else run _ <- reply (Pst general_AckDevAuthenticationInfo [VU 0]);
                 run cert <- cert_bytes;
                 run _ <- tell (CAccAuthCert cert) (fun s => dev_AccAuthCert dev s cert);
                 reply (Pst general_GetDevAuthenticationSignatureV2 [VArr (repeat x00 20); VU 0])
          else reply (Pst general_AckDevAuthenticationInfo [VU 0])
      | general_RetDevAuthenticationSignature =>                        (* 168-169 *)
          reply (Pst general_AckDevAuthenticationStatus [VU 0])
      | general_GetiPodAuthenticationInfo =>                            (* 171-175 *)
          reply (Pst general_RetiPodAuthenticationInfo [VU 1; VU 1; VU 0; VU 0; VBytes []])
      | general_AckiPodAuthenticationInfo => ret tt                     (* 177 *)
      | general_GetiPodAuthenticationSignature =>                       (* 180-181 *)
          reply (Pst general_RetiPodAuthenticationSignature [VArr (fa msg 0)])
      | general_AckiPodAuthenticationStatus => ret tt                   (* 183 *)
      | general_GetiPodOptions => reply (Pst general_RetiPodOptions [VU 0]) (* 187-188 *)
      | general_RetAccessoryInfo => ret tt                              (* 192 *)
      | general_GetiPodPreferences =>                                   (* 195-199 *)
          run setting <- ask (CPrefSettingID (fu msg 0)) (fun s => dev_PrefSettingID dev s (fu msg 0));
          reply (Pst general_RetiPodPreferences [VU (fu msg 0); VU setting])
      | general_SetiPodPreferences =>                                   (* 201-203 *)
          run _ <- tell (CSetPrefSettingID (fu msg 0) (fu msg 1) (ByteToBool (fu msg 2)))
                        (fun s => dev_SetPrefSettingID dev s (fu msg 0) (fu msg 1) (ByteToBool (fu msg 2)));
          reply (ackSuccess req)
      | general_GetUIMode =>                                            (* 205-206 *)
          run m <- get_mode; reply (Pst general_RetUIMode [VU m])
      | general_SetUIMode => reply (ackSuccess req)                     (* 207-208 *)
      | general_StartIDPS =>                                            (* 210-213 *)
          run _ <- trx_reset;
          run _ <- tell CStartIDPS (dev_StartIDPS dev);
          reply (ackSuccess req)
      | general_EndIDPS =>                                              (* 219-233 *)
          run _ <- tell (CEndIDPS (fu msg 0)) (fun s => dev_EndIDPS dev s (fu msg 0));
          match fu msg 0 with
          | 0%N => run _ <- reply (Pst general_IDPSStatus [VU 0]);      (* 222-224 *)
                   send reg (Pst general_GetDevAuthenticationInfo [])
          | 1%N => reply (Pst general_IDPSStatus [VU 4])                (* 227-228 *)
          | 2%N => reply (Pst general_IDPSStatus [VU 6])                (* 229-230 *)
          | _ => ret tt                                                 (* 231 *)
          end
      | general_AccessoryStatusNotification => ret tt                   (* 236 *)
      | general_SetEventNotification =>                                 (* 239-241 *)
          run _ <- tell (CSetEventNotificationMask (fu msg 0))
                        (fun s => dev_SetEventNotificationMask dev s (fu msg 0));
          reply (ackSuccess req)
      | general_GetiPodOptionsForLingo =>                               (* 243-247 *)
          run options <- ask (CLingoOptions (fu msg 0)) (fun s => dev_LingoOptions dev s (fu msg 0));
          reply (Pst general_RetiPodOptionsForLingo [VU (fu msg 0); VU options])
      | general_GetEventNotification =>                                 (* 249-252 *)
          run mask <- ask CEventNotificationMask (dev_EventNotificationMask dev);
          reply (Pst general_RetEventNotification [VU mask])
      | general_GetSupportedEventNotification =>                        (* 254-257 *)
          run mask <- ask CSupportedEventNotificationMask (dev_SupportedEventNotificationMask dev);
          reply (Pst general_RetSupportedEventNotification [VU mask])
      | general_CancelCommand =>                                        (* 259-261 *)
          run _ <- tell (CCancelCommand (fu msg 0) (fu msg 1) (fu msg 2))
                        (fun s => dev_CancelCommand dev s (fu msg 0) (fu msg 1) (fu msg 2));
          reply (ackSuccess req)
      | general_SetAvailableCurrent => ret tt                           (* 263 *)
      | general_RequestApplicationLaunch => reply (ack req ACKStatusFailed) (* 266-267 *)
      | general_GetNowPlayingFocusApp =>                                (* 269-270 *)
          reply (Pst general_RetNowPlayingFocusApp [VBytes (StringToBytes [])])
      | _ => ret tt                                                     (* 274 *)
      end
  | Some (PTokens l) =>                                                 (* 214-218 *)
      run _ <- set_tokens dev l;
      reply (ackFIDTokenValues l)
  | Some (PUnknown _) => reply (ack req ACKStatusUnkownID)              (* 272-273 *)
  | Some _ => ret tt                                                    (* 274 *)
  end.

(** ** lingo-extremote/handler.go *)

(** extremote/handler.go:11-13; the extended interface ack holds the 16-bit command id. *)
Definition ext_ack (req : command) (status : N) : payload :=
  Pst ext_ACK [VU status; VU (CmdID (cmd_id req))].

(** extremote/handler.go:46-65: the Info value for an info type. *)
Definition ext_track_info (ty : N) : iface :=
  match ty with
  | 0 => IPtr ext_TrackCaps [VU 0; VU 300000; VU 1]                     (* 48-53 *)
  | 3 | 4 => IPtr ext_TrackLongText [VU 0; VU 0; VU 0]                  (* 54-59 *)
  | 7 => IVal anon_struct []                                            (* 60-61 *)
  | _ => IBytes [x00]                                                   (* 62-63 *)
  end%N.

(** extremote/handler.go:19-165 [HandleExtRemote]; [dev] is never used. *)
Definition HandleExtRemote {S} (reg : registry) (req : command) : act S unit :=
  let reply := @respond S reg req in
  let success := reply (ext_ack req 0) in
  match cmd_payload req with
  | Some (Pst t msg) =>
      match t with
      | ext_GetCurrentPlayingTrackChapterInfo =>                        (* 23-27 *)
          reply (Pst ext_ReturnCurrentPlayingTrackChapterInfo [VI 0; VI 1])
      | ext_SetCurrentPlayingTrackChapter => success                    (* 28-29 *)
      | ext_GetCurrentPlayingTrackChapterPlayStatus =>                  (* 30-34 *)
          reply (Pst ext_ReturnCurrentPlayingTrackChapterPlayStatus [VU 0; VU 0])
      | ext_GetCurrentPlayingTrackChapterName =>                        (* 35-38 *)
          reply (Pst ext_ReturnCurrentPlayingTrackChapterName [VBytes (StringToBytes (lit "chapter"))])
      | ext_GetAudiobookSpeed => reply (Pst ext_ReturnAudiobookSpeed [VU 0]) (* 39-42 *)
      | ext_SetAudiobookSpeed => success                                (* 43-44 *)
      | ext_GetIndexedPlayingTrackInfo =>                               (* 45-69 *)
          reply (PExtTrackInfo (fu msg 0) (ext_track_info (fu msg 0)))
      | ext_GetArtworkFormats => reply (PExtArtwork [])                 (* 70-71 *)
      | ext_GetTrackArtworkData => reply (ext_ack req 2)                (* 72-76 *)
      | ext_ResetDBSelection => success                                 (* 77-78 *)
      | ext_SelectDBRecord => success                                   (* 79-80 *)
      | ext_GetNumberCategorizedDBRecords =>                            (* 81-84 *)
          reply (Pst ext_ReturnNumberCategorizedDBRecords [VI 1])
      | ext_RetrieveCategorizedDatabaseRecords =>                       (* 85-86 *)
          reply (Pst ext_ReturnCategorizedDatabaseRecord [VU 0; VArr (repeat x00 16)])
      | ext_GetPlayStatus =>                                            (* 87-92 *)
          reply (Pst ext_ReturnPlayStatus [VU 300000; VU 20000; VU 2])
      | ext_GetCurrentPlayingTrackIndex =>                              (* 93-96 *)
          reply (Pst ext_ReturnCurrentPlayingTrackIndex [VI 0])
      | ext_GetIndexedPlayingTrackTitle =>                              (* 97-100 *)
          reply (Pst ext_ReturnIndexedPlayingTrackTitle [VBytes (StringToBytes (lit "title"))])
      | ext_GetIndexedPlayingTrackArtistName =>                         (* 101-104 *)
          reply (Pst ext_ReturnIndexedPlayingTrackArtistName [VBytes (StringToBytes (lit "artist"))])
      | ext_GetIndexedPlayingTrackAlbumName =>                          (* 105-108 *)
          reply (Pst ext_ReturnIndexedPlayingTrackAlbumName [VBytes (StringToBytes (lit "album"))])
      | ext_SetPlayStatusChangeNotification => success                  (* 109-110 *)
      | ext_SetPlayStatusChangeNotificationShort => success             (* 111-112 *)
      | ext_PlayCurrentSelection => success                             (* 113-114 *)
      | ext_PlayControl => success                                      (* 115-116 *)
      | ext_GetTrackArtworkTimes => reply (Pst ext_RetTrackArtworkTimes []) (* 117-118 *)
      | ext_GetShuffle => reply (Pst ext_ReturnShuffle [VU 0])          (* 119-120 *)
      | ext_SetShuffle => success                                       (* 121-122 *)
      | ext_GetRepeat => reply (Pst ext_ReturnRepeat [VU 0])            (* 124-125 *)
      | ext_SetRepeat => success                                        (* 126-127 *)
      | ext_SetDisplayImage => success                                  (* 129-130 *)
      | ext_GetMonoDisplayImageLimits =>                                (* 131-136 *)
          reply (Pst ext_ReturnMonoDisplayImageLimits [VU 640; VU 960; VU 1])
      | ext_GetNumPlayingTracks => reply (Pst ext_ReturnNumPlayingTracks [VU 1]) (* 137-140 *)
      | ext_GetColorDisplayImageLimits =>                               (* 143-148 *)
          reply (Pst ext_ReturnColorDisplayImageLimits [VU 640; VU 960; VU 1])
      | ext_ResetDBSelectionHierarchy => reply (ext_ack req 2)          (* 149-150 *)
      | _ => ret tt                                                     (* 141-142, 152-163 *)
      end
  | _ => ret tt                                                         (* 161 *)
  end.

(** ** lingo-dispremote/handler.go *)

(** dispremote/handler.go:13-15. *)
Definition disp_ackSuccess (req : command) : payload := Pst disp_ACK [VU 0; VU (cmd8 req)].

(** dispremote/handler.go:49-101: the InfoData for an info type other than the date, [None] for
    an unknown one. *)
Definition disp_state_info (ty : N) : option iface :=
  match ty with
  | 0 => Some (IPtr disp_InfoTrackPositionMs [VU 0])
  | 1 => Some (IPtr disp_InfoTrackIndex [VU 1])
  | 2 => Some (IPtr disp_InfoChapterIndex [VU 0; VU 0; VU 0])
  | 3 => Some (IPtr disp_InfoPlayStatus [VU 1])
  | 4 => Some (IPtr disp_InfoVolume [VU 0; VU 255])
  | 5 => Some (IPtr disp_InfoPower [VU 5; VU 255])
  | 6 => Some (IPtr disp_InfoEqualizer [VU 0])
  | 7 => Some (IPtr disp_InfoShuffle [VU 0])
  | 8 => Some (IPtr disp_InfoRepeat [VU 0])
  | 11 => Some (IPtr disp_InfoBacklight [VU 255])
  | 12 => Some (IPtr disp_InfoHoldSwitch [VU 0])
  | 13 => Some (IPtr disp_InfoSoundCheck [VU 0])
  | 14 => Some (IPtr disp_InfoAudiobookSpeed [VU 0])
  | 15 => Some (IPtr disp_InfoTrackPositionSec [VU 0])
  | 16 => Some (IPtr disp_InfoVolume2 [VU 0; VU 255; VU 255])
  | _ => None
  end%N.

(** dispremote/handler.go:74-82: conversions of the clock reading. *)
Definition disp_date_info (d : datetime) : iface :=
  let '(y, mo, da, ho, mi) := d in
  IPtr disp_InfoDateTime [VU (y mod 65536); VU (mo mod 256); VU (da mod 256); VU (ho mod 256); VU (mi mod 256)]%N.

(** dispremote/handler.go:120-164. *)
Definition disp_track_info (ty : N) : option iface :=
  match ty with
  | 0 => Some (IPtr disp_TrackInfoCaps [VU 0; VU 300000; VU 0])
  | 1 => Some (IPtr disp_TrackInfoChapterTimeName [VU 0; VBytes (StringToBytes [])])
  | 2 => Some (IPtr disp_TrackInfoArtist [VBytes (StringToBytes [])])
  | 3 => Some (IPtr disp_TrackInfoAlbum [VBytes (StringToBytes [])])
  | 4 => Some (IPtr disp_TrackInfoGenre [VBytes (StringToBytes [])])
  | 5 => Some (IPtr disp_TrackInfoTrack [VBytes (StringToBytes (lit "track"))])
  | 6 => Some (IPtr disp_TrackInfoComposer [VBytes (StringToBytes [])])
  | 7 => Some (IPtr disp_TrackInfoLyrics [VU 0; VU 0; VBytes (StringToBytes [])])
  | 8 => Some (IPtr disp_TrackInfoArtworkCount [VU 8])
  | _ => None
  end%N.

(** dispremote/handler.go:17-194 [HandleDispRemote]; returns the error. *)
Definition HandleDispRemote {S} (reg : registry) (clock : nat -> datetime) (req : command)
  : act S (option goerr) :=
  let reply p := run _ <- @respond S reg req p; ret None in
  let success := reply (disp_ackSuccess req) in
  match cmd_payload req with
  | Some (Pst t msg) =>
      match t with
      | disp_GetCurrentEQProfileIndex => reply (Pst disp_RetCurrentEQProfileIndex [VU 0]) (* 20-23 *)
      | disp_SetCurrentEQProfileIndex => success                        (* 25-26 *)
      | disp_GetNumEQProfiles => reply (Pst disp_RetNumEQProfiles [VU 1]) (* 28-31 *)
      | disp_GetIndexedEQProfileName =>                                 (* 32-35 *)
          reply (Pst disp_RetIndexedEQProfileName [VBytes (StringToBytes (lit "Default"))])
      | disp_SetRemoteEventNotification => success                      (* 36-37 *)
      | disp_GetRemoteEventStatus => reply (Pst disp_RetRemoteEventStatus [VU 0]) (* 39-42 *)
      | disp_GetiPodStateInfo =>                                        (* 44-103 *)
          if (fu msg 0 =? 9)%N then
            run d <- now clock;                                         (* 75 *)
            reply (PStateInfo (fu msg 0) (disp_date_info d))
          else match disp_state_info (fu msg 0) with
               | Some i => reply (PStateInfo (fu msg 0) i)
               | None => ret (Some errUnknownInfoType)                  (* 99-100 *)
               end
      | disp_SetiPodStateInfo => success                                (* 105-106 *)
      | disp_GetPlayStatus => reply (Pst disp_RetPlayStatus [VU 0; VU 0; VU 0; VU 0]) (* 108-111 *)
      | disp_SetCurrentPlayingTrack => success                          (* 113-114 *)
      | disp_GetIndexedPlayingTrackInfo =>                              (* 115-166 *)
          match disp_track_info (fu msg 0) with
          | Some i => reply (PDispTrackInfo (fu msg 0) i)
          | None => ret (Some errUnknownInfoType)                       (* 162-163 *)
          end
      | disp_GetNumPlayingTracks => reply (Pst disp_RetNumPlayingTracks [VU 0]) (* 167-170 *)
      | disp_GetArtworkFormats => reply (PDispArtwork [])               (* 171-172 *)
      | disp_GetTrackArtworkData => ret None                            (* 173-175 *)
      | disp_GetPowerBatteryState => reply (Pst disp_RetPowerBatteryState [VU 1; VU 255]) (* 176-180 *)
      | disp_GetSoundCheckState => reply (Pst disp_RetSoundCheckState [VBool false]) (* 181-184 *)
      | disp_SetSoundCheckState => success                              (* 185-186 *)
      | disp_GetTrackArtworkTimes => reply (Pst disp_RetTrackArtworkTimes [VU32s []]) (* 187-188 *)
      | _ => ret None                                                   (* 190 *)
      end
  | _ => ret None                                                       (* 190 *)
  end.

(** ** lingo-audio/handler.go *)

(** audio/handler.go:18-20 [Start]. *)
Definition audio_Start {S} (reg : registry) : act S unit := send reg (Pst audio_GetAccSampleRateCaps []).

(** audio/handler.go:22-34 [HandleAudio]. *)
Definition HandleAudio {S} (reg : registry) (req : command) : act S unit :=
  match cmd_payload req with
  | Some (Pst audio_RetAccSampleRateCaps _) =>                          (* 25-28 *)
      respond reg req (Pst audio_TrackNewAudioAttributes [VU 44100; VU 0; VU 0])
  | _ => ret tt                                                         (* 24, 30 *)
  end.

(** ** cmd/ipod/main.go:388-408 [handlePacket]; logging is not modelled. *)
Definition handlePacket {S} (reg : registry) (clock : nat -> datetime) (dev : DeviceGeneral S)
  (cmd : command) : act S unit :=
  let lingo := LingoID (cmd_id cmd) in
  if (lingo =? LingoGeneralID)%N then
    run _ <- match cmd_payload cmd with
             | Some (Pst general_RetDevAuthenticationInfo auth) =>      (* 391-395 *)
                 if ((2 <=? fu auth 0) && (fu auth 3 <=? fu auth 2) || (fu auth 0 <? 2))%N%bool
                 then audio_Start reg else ret tt
             | _ => ret tt
             end;
    HandleGeneral reg dev cmd                                           (* 396 *)
  else if (lingo =? LingoDisplayRemoteID)%N then
    run _ <- HandleDispRemote reg clock cmd; ret tt                     (* 402 *)
  else if (lingo =? LingoExtRemoteID)%N then HandleExtRemote reg cmd    (* 404 *)
  else if (lingo =? LingoDigitalAudioID)%N then HandleAudio reg cmd     (* 406 *)
  else ret tt.                                                          (* 398-400 and no default *)

(** ** cmd/ipod/general.go: the device of the command line tool *)

(** general.go:15-18. *)
Record DevGeneral := mkDG { dg_uimode : N; dg_tokens : list token_value }.

(** main.go:386 [devGeneral = &DevGeneral{}]. *)
Definition DevGeneral_init : DevGeneral := mkDG 0 [].

(** cmd/ipod/general.go:22-153.  EndIDPS (103-139) and AccAuthCert (141-153) only log, through
    go-spew and a third-party PKCS#7 parser: simplified to doing nothing. *)
Definition DevGeneral_device : DeviceGeneral DevGeneral := {|
  dev_UIMode := fun d => (d, dg_uimode d);                              (* 22-24 *)
  dev_SetUIMode := fun d m => mkDG m (dg_tokens d);                     (* 26-28 *)
  dev_Name := fun d => (d, lit "ipod-gadget");                          (* 30-32 *)
  dev_SoftwareVersion := fun d => (d, (7, 1, 2)%N);                     (* 34-36 *)
  dev_SerialNum := fun d => (d, lit "abcd1234");                        (* 38-40 *)
  dev_LingoProtocolVersion := fun d lingo =>                            (* 42-55 *)
    (d, if (lingo =? LingoGeneralID)%N then (1, 9)%N
        else if (lingo =? LingoDisplayRemoteID)%N then (1, 5)%N
        else if (lingo =? LingoExtRemoteID)%N then (1, 12)%N
        else if (lingo =? LingoDigitalAudioID)%N then (1, 2)%N
        else (1, 1)%N);
  dev_LingoOptions := fun d lingo =>                                    (* 57-65, 0x000000063DEF73FF *)
    (d, if (lingo =? LingoGeneralID)%N then 26808906751%N else 0%N);
  dev_PrefSettingID := fun d _ => (d, 0%N);                             (* 67-69 *)
  dev_SetPrefSettingID := fun d _ _ _ => d;                             (* 71-72 *)
  dev_StartIDPS := fun d => mkDG (dg_uimode d) [];                      (* 94-96 *)
  dev_EndIDPS := fun d _ => d;                                          (* 103-139 *)
  dev_SetToken := fun d t => (mkDG (dg_uimode d) (dg_tokens d ++ [t]), None); (* 98-101 *)
  dev_AccAuthCert := fun d _ => d;                                      (* 141-153 *)
  dev_SetEventNotificationMask := fun d _ => d;                         (* 74-76 *)
  dev_EventNotificationMask := fun d => (d, 0%N);                       (* 78-80 *)
  dev_SupportedEventNotificationMask := fun d => (d, 0%N);              (* 82-84 *)
  dev_CancelCommand := fun d _ _ _ => d;                                (* 86-88 *)
  dev_MaxPayload := fun d => (d, 65535%N)                               (* 90-92 *)
|}.
