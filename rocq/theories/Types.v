(** GENERATED by tools/gen_types.py from /repo: the Go struct types of the lingo packages, their
    field layouts and names, and the lingo tables.  Field names are in the comments.
    Fields of named integer types are given the width of the underlying type; a struct-typed or
    embedded field is replaced by its fields (encoding/binary treats both alike). *)
From Verif Require Import Base GoTypes.

(** One constructor per Go struct type. *)
Inductive pty : Type :=
| general_RequestIdentify (* lingo-general/general.go:97-97 *)
| general_ACK (* lingo-general/general.go:108-111 *)
| general_ACKPending (* lingo-general/general.go:113-117 *)
| general_ACKDataDropped (* lingo-general/general.go:119-124 *)
| general_RequestRemoteUIMode (* lingo-general/general.go:126-126 *)
| general_ReturnRemoteUIMode (* lingo-general/general.go:128-130 *)
| general_EnterRemoteUIMode (* lingo-general/general.go:132-132 *)
| general_ExitRemoteUIMode (* lingo-general/general.go:134-134 *)
| general_RequestiPodName (* lingo-general/general.go:136-136 *)
| general_ReturniPodName (* lingo-general/general.go:138-140 *)
| general_RequestiPodSoftwareVersion (* lingo-general/general.go:152-152 *)
| general_ReturniPodSoftwareVersion (* lingo-general/general.go:154-158 *)
| general_RequestiPodSerialNum (* lingo-general/general.go:159-160 *)
| general_ReturniPodSerialNum (* lingo-general/general.go:161-163 *)
| general_RequestiPodModelNum (* lingo-general/general.go:175-176 *)
| general_ReturniPodModelNum (* lingo-general/general.go:177-180 *)
| general_RequestLingoProtocolVersion (* lingo-general/general.go:200-202 *)
| general_ReturnLingoProtocolVersion (* lingo-general/general.go:204-208 *)
| general_RequestTransportMaxPayloadSize (* lingo-general/general.go:210-210 *)
| general_ReturnTransportMaxPayloadSize (* lingo-general/general.go:212-214 *)
| general_IdentifyDeviceLingoes (* lingo-general/general.go:245-249 *)
| general_GetDevAuthenticationInfo (* lingo-general/general.go:251-251 *)
| general_RetDevAuthenticationInfo (* lingo-general/general.go:258-264 *)
| general_AckDevAuthenticationInfo (* lingo-general/general.go:292-294 *)
| general_GetDevAuthenticationSignatureV1 (* lingo-general/general.go:295-298 *)
| general_GetDevAuthenticationSignatureV2 (* lingo-general/general.go:300-303 *)
| general_RetDevAuthenticationSignature (* lingo-general/general.go:305-307 *)
| general_AckDevAuthenticationStatus (* lingo-general/general.go:322-324 *)
| general_GetiPodAuthenticationInfo (* lingo-general/general.go:325-325 *)
| general_RetiPodAuthenticationInfo (* lingo-general/general.go:327-333 *)
| general_AckiPodAuthenticationInfo (* lingo-general/general.go:334-336 *)
| general_GetiPodAuthenticationSignature (* lingo-general/general.go:338-341 *)
| general_RetiPodAuthenticationSignature (* lingo-general/general.go:342-344 *)
| general_AckiPodAuthenticationStatus (* lingo-general/general.go:346-348 *)
| general_NotifyiPodStateChange (* lingo-general/general.go:349-351 *)
| general_GetiPodOptions (* lingo-general/general.go:352-352 *)
| general_RetiPodOptions (* lingo-general/general.go:354-356 *)
| general_GetAccessoryInfo (* lingo-general/general.go:358-360 *)
| general_GetAccessoryInfo2 (* lingo-general/general.go:362-368 *)
| general_GetAccessoryInfo3 (* lingo-general/general.go:370-373 *)
| general_RetAccessoryInfo (* lingo-general/general.go:375-378 *)
| general_GetiPodPreferences (* lingo-general/general.go:406-408 *)
| general_RetiPodPreferences (* lingo-general/general.go:409-412 *)
| general_SetiPodPreferences (* lingo-general/general.go:414-418 *)
| general_GetUIMode (* lingo-general/general.go:428-428 *)
| general_RetUIMode (* lingo-general/general.go:429-431 *)
| general_SetUIMode (* lingo-general/general.go:433-435 *)
| general_StartIDPS (* lingo-general/general.go:437-437 *)
| general_FIDIdentifyToken (* lingo-general/general.go:439-443 *)
| general_FIDAccCapsToken (* lingo-general/general.go:491-493 *)
| general_FIDAccInfoToken (* lingo-general/general.go:514-517 *)
| general_FIDiPodPreferenceToken (* lingo-general/general.go:544-548 *)
| general_FIDEAProtocolToken (* lingo-general/general.go:550-553 *)
| general_FIDBundleSeedIDPrefToken (* lingo-general/general.go:561-563 *)
| general_FIDScreenInfoToken (* lingo-general/general.go:565-576 *)
| general_FIDEAProtocolMetadataToken (* lingo-general/general.go:578-581 *)
| general_FIDMicrophoneCapsToken (* lingo-general/general.go:583-585 *)
| general_TokenID (* lingo-general/general.go:587-590 *)
| general_FIDTokenValue (* lingo-general/general.go:592-595 *)
| general_SetFIDTokenValues (* lingo-general/general.go:675-677 *)
| general_FIDTokenValueACK (* lingo-general/general.go:716-719 *)
| general_RetFIDTokenValueACKs (* lingo-general/general.go:758-760 *)
| general_EndIDPS (* lingo-general/general.go:807-809 *)
| general_IDPSStatus (* lingo-general/general.go:819-821 *)
| general_OpenDataSessionForProtocol (* lingo-general/general.go:823-826 *)
| general_CloseDataSession (* lingo-general/general.go:827-829 *)
| general_DevACK (* lingo-general/general.go:830-833 *)
| general_DevDataTransfer (* lingo-general/general.go:835-838 *)
| general_IPodDataTransfer (* lingo-general/general.go:839-842 *)
| general_SetAccStatusNotification (* lingo-general/general.go:843-845 *)
| general_RetAccStatusNotification (* lingo-general/general.go:846-848 *)
| general_AccessoryStatusNotification (* lingo-general/general.go:849-852 *)
| general_SetEventNotification (* lingo-general/general.go:854-856 *)
| general_IPodNotification (* lingo-general/general.go:857-860 *)
| general_GetiPodOptionsForLingo (* lingo-general/general.go:862-864 *)
| general_RetiPodOptionsForLingo (* lingo-general/general.go:865-868 *)
| general_GetEventNotification (* lingo-general/general.go:869-869 *)
| general_RetEventNotification (* lingo-general/general.go:871-873 *)
| general_GetSupportedEventNotification (* lingo-general/general.go:874-874 *)
| general_CancelCommand (* lingo-general/general.go:876-880 *)
| general_RetSupportedEventNotification (* lingo-general/general.go:881-883 *)
| general_SetAvailableCurrent (* lingo-general/general.go:884-886 *)
| general_RequestApplicationLaunch (* lingo-general/general.go:887-892 *)
| general_GetNowPlayingFocusApp (* lingo-general/general.go:902-902 *)
| general_RetNowPlayingFocusApp (* lingo-general/general.go:904-906 *)
| simple_ButtonStates (* lingo-simpleremote/simpleremote.go:40-44 *)
| simple_ContextButtonStatus (* lingo-simpleremote/simpleremote.go:117-120 *)
| simple_ACK (* lingo-simpleremote/simpleremote.go:136-136 *)
| simple_VideoButtonStatus (* lingo-simpleremote/simpleremote.go:137-139 *)
| simple_AudioButtonStatus (* lingo-simpleremote/simpleremote.go:140-142 *)
| simple_iPodOutButtonStatus (* lingo-simpleremote/simpleremote.go:143-146 *)
| simple_RotationInputStatus (* lingo-simpleremote/simpleremote.go:148-148 *)
| simple_RadioButtonStatus (* lingo-simpleremote/simpleremote.go:149-149 *)
| simple_CameraButtonStatus (* lingo-simpleremote/simpleremote.go:150-150 *)
| simple_RegisterDescriptor (* lingo-simpleremote/simpleremote.go:151-151 *)
| simple_SendHIDReportToiPod (* lingo-simpleremote/simpleremote.go:152-152 *)
| simple_SendHIDReportToAcc (* lingo-simpleremote/simpleremote.go:153-153 *)
| simple_UnregisterDescriptor (* lingo-simpleremote/simpleremote.go:154-154 *)
| simple_AccessibilityEvent (* lingo-simpleremote/simpleremote.go:155-155 *)
| simple_GetAccessibilityParameter (* lingo-simpleremote/simpleremote.go:156-156 *)
| simple_RetAccessibilityParameter (* lingo-simpleremote/simpleremote.go:157-157 *)
| simple_SetAccessibilityParameter (* lingo-simpleremote/simpleremote.go:158-158 *)
| simple_GetCurrentItemProperty (* lingo-simpleremote/simpleremote.go:159-159 *)
| simple_RetCurrentItemProperty (* lingo-simpleremote/simpleremote.go:160-160 *)
| simple_SetContext (* lingo-simpleremote/simpleremote.go:161-161 *)
| simple_AccParameterChanged (* lingo-simpleremote/simpleremote.go:162-162 *)
| simple_DevACK (* lingo-simpleremote/simpleremote.go:163-163 *)
| disp_ACK (* lingo-dispremote/dispremote.go:58-61 *)
| disp_GetCurrentEQProfileIndex (* lingo-dispremote/dispremote.go:62-63 *)
| disp_RetCurrentEQProfileIndex (* lingo-dispremote/dispremote.go:64-66 *)
| disp_SetCurrentEQProfileIndex (* lingo-dispremote/dispremote.go:67-70 *)
| disp_GetNumEQProfiles (* lingo-dispremote/dispremote.go:71-72 *)
| disp_RetNumEQProfiles (* lingo-dispremote/dispremote.go:73-75 *)
| disp_GetIndexedEQProfileName (* lingo-dispremote/dispremote.go:76-78 *)
| disp_RetIndexedEQProfileName (* lingo-dispremote/dispremote.go:79-81 *)
| disp_SetRemoteEventNotification (* lingo-dispremote/dispremote.go:82-84 *)
| disp_RemoteEventNotification (* lingo-dispremote/dispremote.go:85-88 *)
| disp_GetRemoteEventStatus (* lingo-dispremote/dispremote.go:89-90 *)
| disp_RetRemoteEventStatus (* lingo-dispremote/dispremote.go:91-93 *)
| disp_InfoTrackPositionMs (* lingo-dispremote/dispremote.go:118-120 *)
| disp_InfoTrackIndex (* lingo-dispremote/dispremote.go:121-123 *)
| disp_InfoChapterIndex (* lingo-dispremote/dispremote.go:124-128 *)
| disp_InfoPlayStatus (* lingo-dispremote/dispremote.go:142-144 *)
| disp_InfoVolume (* lingo-dispremote/dispremote.go:145-148 *)
| disp_InfoPower (* lingo-dispremote/dispremote.go:149-152 *)
| disp_InfoEqualizer (* lingo-dispremote/dispremote.go:153-155 *)
| disp_InfoShuffle (* lingo-dispremote/dispremote.go:156-158 *)
| disp_InfoRepeat (* lingo-dispremote/dispremote.go:159-161 *)
| disp_InfoDateTime (* lingo-dispremote/dispremote.go:162-168 *)
| disp_InfoBacklight (* lingo-dispremote/dispremote.go:169-171 *)
| disp_InfoHoldSwitch (* lingo-dispremote/dispremote.go:172-174 *)
| disp_InfoSoundCheck (* lingo-dispremote/dispremote.go:175-177 *)
| disp_InfoAudiobookSpeed (* lingo-dispremote/dispremote.go:178-180 *)
| disp_InfoTrackPositionSec (* lingo-dispremote/dispremote.go:181-183 *)
| disp_InfoVolume2 (* lingo-dispremote/dispremote.go:184-188 *)
| disp_GetiPodStateInfo (* lingo-dispremote/dispremote.go:190-192 *)
| disp_RetiPodStateInfo (* lingo-dispremote/dispremote.go:193-196 *)
| disp_SetiPodStateInfo (* lingo-dispremote/dispremote.go:247-250 *)
| disp_GetPlayStatus (* lingo-dispremote/dispremote.go:251-252 *)
| disp_RetPlayStatus (* lingo-dispremote/dispremote.go:253-258 *)
| disp_SetCurrentPlayingTrack (* lingo-dispremote/dispremote.go:259-261 *)
| disp_GetIndexedPlayingTrackInfo (* lingo-dispremote/dispremote.go:278-282 *)
| disp_TrackInfoCaps (* lingo-dispremote/dispremote.go:284-288 *)
| disp_TrackInfoChapterTimeName (* lingo-dispremote/dispremote.go:289-292 *)
| disp_TrackInfoArtist (* lingo-dispremote/dispremote.go:293-295 *)
| disp_TrackInfoAlbum (* lingo-dispremote/dispremote.go:296-298 *)
| disp_TrackInfoGenre (* lingo-dispremote/dispremote.go:299-301 *)
| disp_TrackInfoTrack (* lingo-dispremote/dispremote.go:302-304 *)
| disp_TrackInfoComposer (* lingo-dispremote/dispremote.go:305-307 *)
| disp_TrackInfoLyrics (* lingo-dispremote/dispremote.go:308-312 *)
| disp_TrackInfoArtworkCount (* lingo-dispremote/dispremote.go:313-315 *)
| disp_RetIndexedPlayingTrackInfo (* lingo-dispremote/dispremote.go:317-320 *)
| disp_GetNumPlayingTracks (* lingo-dispremote/dispremote.go:374-375 *)
| disp_RetNumPlayingTracks (* lingo-dispremote/dispremote.go:376-378 *)
| disp_GetArtworkFormats (* lingo-dispremote/dispremote.go:379-380 *)
| disp_ArtworkFormat (* lingo-dispremote/dispremote.go:382-387 *)
| disp_RetArtworkFormats (* lingo-dispremote/dispremote.go:388-390 *)
| disp_GetTrackArtworkData (* lingo-dispremote/dispremote.go:391-395 *)
| disp_RetTrackArtworkData (* lingo-dispremote/dispremote.go:396-398 *)
| disp_GetPowerBatteryState (* lingo-dispremote/dispremote.go:399-400 *)
| disp_RetPowerBatteryState (* lingo-dispremote/dispremote.go:401-404 *)
| disp_GetSoundCheckState (* lingo-dispremote/dispremote.go:405-406 *)
| disp_RetSoundCheckState (* lingo-dispremote/dispremote.go:407-409 *)
| disp_SetSoundCheckState (* lingo-dispremote/dispremote.go:410-413 *)
| disp_GetTrackArtworkTimes (* lingo-dispremote/dispremote.go:414-419 *)
| disp_RetTrackArtworkTimes (* lingo-dispremote/dispremote.go:420-422 *)
| ext_ACK (* lingo-extremote/extremote.go:89-92 *)
| ext_GetCurrentPlayingTrackChapterInfo (* lingo-extremote/extremote.go:93-94 *)
| ext_ReturnCurrentPlayingTrackChapterInfo (* lingo-extremote/extremote.go:95-98 *)
| ext_SetCurrentPlayingTrackChapter (* lingo-extremote/extremote.go:99-101 *)
| ext_GetCurrentPlayingTrackChapterPlayStatus (* lingo-extremote/extremote.go:102-104 *)
| ext_ReturnCurrentPlayingTrackChapterPlayStatus (* lingo-extremote/extremote.go:105-108 *)
| ext_GetCurrentPlayingTrackChapterName (* lingo-extremote/extremote.go:109-111 *)
| ext_ReturnCurrentPlayingTrackChapterName (* lingo-extremote/extremote.go:112-114 *)
| ext_GetAudiobookSpeed (* lingo-extremote/extremote.go:115-116 *)
| ext_ReturnAudiobookSpeed (* lingo-extremote/extremote.go:118-120 *)
| ext_SetAudiobookSpeed (* lingo-extremote/extremote.go:121-123 *)
| ext_TrackCaps (* lingo-extremote/extremote.go:138-142 *)
| ext_TrackReleaseDate (* lingo-extremote/extremote.go:144-146 *)
| ext_TrackLongText (* lingo-extremote/extremote.go:148-152 *)
| ext_GetIndexedPlayingTrackInfo (* lingo-extremote/extremote.go:154-158 *)
| ext_ReturnIndexedPlayingTrackInfo (* lingo-extremote/extremote.go:159-162 *)
| ext_GetArtworkFormats (* lingo-extremote/extremote.go:195-196 *)
| ext_ArtworkFormat (* lingo-extremote/extremote.go:198-203 *)
| ext_RetArtworkFormats (* lingo-extremote/extremote.go:204-206 *)
| ext_GetTrackArtworkData (* lingo-extremote/extremote.go:233-237 *)
| ext_RetTrackArtworkData (* lingo-extremote/extremote.go:238-250 *)
| ext_ResetDBSelection (* lingo-extremote/extremote.go:253-254 *)
| ext_SelectDBRecord (* lingo-extremote/extremote.go:270-273 *)
| ext_GetNumberCategorizedDBRecords (* lingo-extremote/extremote.go:274-276 *)
| ext_ReturnNumberCategorizedDBRecords (* lingo-extremote/extremote.go:277-279 *)
| ext_RetrieveCategorizedDatabaseRecords (* lingo-extremote/extremote.go:280-284 *)
| ext_ReturnCategorizedDatabaseRecord (* lingo-extremote/extremote.go:285-288 *)
| ext_GetPlayStatus (* lingo-extremote/extremote.go:289-290 *)
| ext_ReturnPlayStatus (* lingo-extremote/extremote.go:301-305 *)
| ext_GetCurrentPlayingTrackIndex (* lingo-extremote/extremote.go:307-308 *)
| ext_ReturnCurrentPlayingTrackIndex (* lingo-extremote/extremote.go:309-311 *)
| ext_GetIndexedPlayingTrackTitle (* lingo-extremote/extremote.go:312-314 *)
| ext_ReturnIndexedPlayingTrackTitle (* lingo-extremote/extremote.go:315-317 *)
| ext_GetIndexedPlayingTrackArtistName (* lingo-extremote/extremote.go:329-331 *)
| ext_ReturnIndexedPlayingTrackArtistName (* lingo-extremote/extremote.go:332-334 *)
| ext_GetIndexedPlayingTrackAlbumName (* lingo-extremote/extremote.go:346-348 *)
| ext_ReturnIndexedPlayingTrackAlbumName (* lingo-extremote/extremote.go:349-351 *)
| ext_SetPlayStatusChangeNotification (* lingo-extremote/extremote.go:363-365 *)
| ext_SetPlayStatusChangeNotificationShort (* lingo-extremote/extremote.go:369-371 *)
| ext_PlayStatusChangeNotification (* lingo-extremote/extremote.go:372-374 *)
| ext_PlayCurrentSelection (* lingo-extremote/extremote.go:375-377 *)
| ext_PlayControl (* lingo-extremote/extremote.go:397-399 *)
| ext_GetTrackArtworkTimes (* lingo-extremote/extremote.go:400-405 *)
| ext_RetTrackArtworkTimes (* lingo-extremote/extremote.go:406-408 *)
| ext_GetShuffle (* lingo-extremote/extremote.go:418-419 *)
| ext_ReturnShuffle (* lingo-extremote/extremote.go:420-422 *)
| ext_SetShuffle (* lingo-extremote/extremote.go:423-426 *)
| ext_GetRepeat (* lingo-extremote/extremote.go:436-437 *)
| ext_ReturnRepeat (* lingo-extremote/extremote.go:438-440 *)
| ext_SetRepeat (* lingo-extremote/extremote.go:441-444 *)
| ext_SetDisplayImage (* lingo-extremote/extremote.go:445-447 *)
| ext_GetMonoDisplayImageLimits (* lingo-extremote/extremote.go:448-449 *)
| ext_ReturnMonoDisplayImageLimits (* lingo-extremote/extremote.go:450-454 *)
| ext_GetNumPlayingTracks (* lingo-extremote/extremote.go:455-456 *)
| ext_ReturnNumPlayingTracks (* lingo-extremote/extremote.go:457-459 *)
| ext_SetCurrentPlayingTrack (* lingo-extremote/extremote.go:460-462 *)
| ext_SelectSortDBRecord (* lingo-extremote/extremote.go:463-467 *)
| ext_GetColorDisplayImageLimits (* lingo-extremote/extremote.go:468-469 *)
| ext_ReturnColorDisplayImageLimits (* lingo-extremote/extremote.go:470-474 *)
| ext_ResetDBSelectionHierarchy (* lingo-extremote/extremote.go:476-478 *)
| ext_GetDBiTunesInfo (* lingo-extremote/extremote.go:479-480 *)
| ext_RetDBiTunesInfo (* lingo-extremote/extremote.go:481-482 *)
| ext_GetUIDTrackInfo (* lingo-extremote/extremote.go:483-484 *)
| ext_RetUIDTrackInfo (* lingo-extremote/extremote.go:485-486 *)
| ext_GetDBTrackInfo (* lingo-extremote/extremote.go:488-489 *)
| ext_RetDBTrackInfo (* lingo-extremote/extremote.go:490-491 *)
| ext_GetPBTrackInfo (* lingo-extremote/extremote.go:492-493 *)
| ext_RetPBTrackInfo (* lingo-extremote/extremote.go:494-495 *)
| audio_AccAck (* lingo-audio/audio.go:29-32 *)
| audio_iPodAck (* lingo-audio/audio.go:33-36 *)
| audio_GetAccSampleRateCaps (* lingo-audio/audio.go:37-38 *)
| audio_RetAccSampleRateCaps (* lingo-audio/audio.go:39-41 *)
| audio_TrackNewAudioAttributes (* lingo-audio/audio.go:54-58 *)
| audio_SetVideoDelay (* lingo-audio/audio.go:59-61 *)
| anon_struct (* struct{}, lingo-extremote/extremote.go:187, handler.go:61 *).

(** Field layout of each struct, in declaration order. *)
Definition layout (t : pty) : list fty :=
  match t with
  | general_RequestIdentify => [] (* general.go:97-97  *)
  | general_ACK => [FU 1; FU 1] (* general.go:108-111 Status CmdID *)
  | general_ACKPending => [FU 1; FU 1; FU 4] (* general.go:113-117 Status CmdID MaxWait *)
  | general_ACKDataDropped => [FU 1; FU 1; FU 2; FU 4] (* general.go:119-124 Status CmdID SessionID NumBytesDropped *)
  | general_RequestRemoteUIMode => [] (* general.go:126-126  *)
  | general_ReturnRemoteUIMode => [FU 1] (* general.go:128-130 Mode *)
  | general_EnterRemoteUIMode => [] (* general.go:132-132  *)
  | general_ExitRemoteUIMode => [] (* general.go:134-134  *)
  | general_RequestiPodName => [] (* general.go:136-136  *)
  | general_ReturniPodName => [FBytes] (* general.go:138-140 Name *)
  | general_RequestiPodSoftwareVersion => [] (* general.go:152-152  *)
  | general_ReturniPodSoftwareVersion => [FU 1; FU 1; FU 1] (* general.go:154-158 Major Minor Rev *)
  | general_RequestiPodSerialNum => [] (* general.go:159-160  *)
  | general_ReturniPodSerialNum => [FBytes] (* general.go:161-163 Serial *)
  | general_RequestiPodModelNum => [] (* general.go:175-176  *)
  | general_ReturniPodModelNum => [FU 4; FBytes] (* general.go:177-180 ModelID Model *)
  | general_RequestLingoProtocolVersion => [FU 1] (* general.go:200-202 Lingo *)
  | general_ReturnLingoProtocolVersion => [FU 1; FU 1; FU 1] (* general.go:204-208 Lingo Major Minor *)
  | general_RequestTransportMaxPayloadSize => [] (* general.go:210-210  *)
  | general_ReturnTransportMaxPayloadSize => [FU 2] (* general.go:212-214 MaxPayload *)
  | general_IdentifyDeviceLingoes => [FU 4; FU 4; FU 4] (* general.go:245-249 Lingos Options DeviceID *)
  | general_GetDevAuthenticationInfo => [] (* general.go:251-251  *)
  | general_RetDevAuthenticationInfo => [FU 1; FU 1; FU 1; FU 1; FBytes] (* general.go:258-264 Major Minor CertCurrentSection CertMaxSection CertData *)
  | general_AckDevAuthenticationInfo => [FU 1] (* general.go:292-294 Status *)
  | general_GetDevAuthenticationSignatureV1 => [FArr 16; FU 1] (* general.go:295-298 Challenge Counter *)
  | general_GetDevAuthenticationSignatureV2 => [FArr 20; FU 1] (* general.go:300-303 Challenge Counter *)
  | general_RetDevAuthenticationSignature => [FBytes] (* general.go:305-307 Signature *)
  | general_AckDevAuthenticationStatus => [FU 1] (* general.go:322-324 Status *)
  | general_GetiPodAuthenticationInfo => [] (* general.go:325-325  *)
  | general_RetiPodAuthenticationInfo => [FU 1; FU 1; FU 1; FU 1; FBytes] (* general.go:327-333 Major Minor CertCurrentSection CertMaxSection CertData *)
  | general_AckiPodAuthenticationInfo => [FU 1] (* general.go:334-336 Status *)
  | general_GetiPodAuthenticationSignature => [FArr 20; FU 1] (* general.go:338-341 Challenge Counter *)
  | general_RetiPodAuthenticationSignature => [FArr 20] (* general.go:342-344 Signature *)
  | general_AckiPodAuthenticationStatus => [FU 1] (* general.go:346-348 Status *)
  | general_NotifyiPodStateChange => [FU 1] (* general.go:349-351 StateChange *)
  | general_GetiPodOptions => [] (* general.go:352-352  *)
  | general_RetiPodOptions => [FU 8] (* general.go:354-356 Options *)
  | general_GetAccessoryInfo => [FU 1] (* general.go:358-360 InfoType *)
  | general_GetAccessoryInfo2 => [FU 1; FU 4; FU 1; FU 1; FU 1] (* general.go:362-368 InfoType ModelID Major Minor Rev *)
  | general_GetAccessoryInfo3 => [FU 1; FU 1] (* general.go:370-373 InfoType LingoID *)
  | general_RetAccessoryInfo => [FU 1; FBytes] (* general.go:375-378 InfoType Data *)
  | general_GetiPodPreferences => [FU 1] (* general.go:406-408 PrefClassID *)
  | general_RetiPodPreferences => [FU 1; FU 1] (* general.go:409-412 PrefClassID PrefClassSettingID *)
  | general_SetiPodPreferences => [FU 1; FU 1; FU 1] (* general.go:414-418 PrefClassID PrefClassSettingID RestoreOnExit *)
  | general_GetUIMode => [] (* general.go:428-428  *)
  | general_RetUIMode => [FU 1] (* general.go:429-431 UIMode *)
  | general_SetUIMode => [FU 1] (* general.go:433-435 UIMode *)
  | general_StartIDPS => [] (* general.go:437-437  *)
  | general_FIDIdentifyToken => [FBytes; FU 4; FU 4] (* general.go:439-443 AccLingoes DeviceOptions DeviceID *)
  | general_FIDAccCapsToken => [FU 8] (* general.go:491-493 AccCapsBitmask *)
  | general_FIDAccInfoToken => [FU 1; FIface] (* general.go:514-517 AccInfoType Value *)
  | general_FIDiPodPreferenceToken => [FU 1; FU 1; FU 1] (* general.go:544-548 PrefClass PrefClassSetting RestoreOnExit *)
  | general_FIDEAProtocolToken => [FU 1; FBytes] (* general.go:550-553 ProtocolIndex ProtocolString *)
  | general_FIDBundleSeedIDPrefToken => [FArr 11] (* general.go:561-563 BundleSeedIDString *)
  | general_FIDScreenInfoToken => [FU 2; FU 2; FU 2; FU 2; FU 2; FU 2; FU 1; FU 1] (* general.go:565-576 ScreenWidthInches ScreenHeightInches ScreenWidthPixels ScreenHeightPixels IpodScreenWidthPixels IpodScreenHeightPixels ScreenFeaturesMask ScreenGammaValue *)
  | general_FIDEAProtocolMetadataToken => [FU 1; FU 1] (* general.go:578-581 ProtocolIndex MetadataType *)
  | general_FIDMicrophoneCapsToken => [FU 4] (* general.go:583-585 MicCapsBitmask *)
  | general_TokenID => [FU 1; FU 1] (* general.go:587-590 FIDType FIDSubtype *)
  | general_FIDTokenValue => [FU 1; FU 1; FIface] (* general.go:592-595 ID.FIDType ID.FIDSubtype Token *)
  | general_SetFIDTokenValues => [FStructs] (* general.go:675-677 FIDTokenValues *)
  | general_FIDTokenValueACK => [FU 1; FU 1; FIface] (* general.go:716-719 ID.FIDType ID.FIDSubtype ACK *)
  | general_RetFIDTokenValueACKs => [FStructs] (* general.go:758-760 FIDTokenValueACKs *)
  | general_EndIDPS => [FU 1] (* general.go:807-809 AccEndIDPSStatus *)
  | general_IDPSStatus => [FU 1] (* general.go:819-821 Status *)
  | general_OpenDataSessionForProtocol => [FU 2; FU 1] (* general.go:823-826 SessionID ProtocolIndex *)
  | general_CloseDataSession => [FU 2] (* general.go:827-829 SessionID *)
  | general_DevACK => [FU 1; FU 1] (* general.go:830-833 AckStatus CmdID *)
  | general_DevDataTransfer => [FU 2; FBytes] (* general.go:835-838 SessionID Data *)
  | general_IPodDataTransfer => [FU 2; FBytes] (* general.go:839-842 SessionID Data *)
  | general_SetAccStatusNotification => [FU 4] (* general.go:843-845 StatusMask *)
  | general_RetAccStatusNotification => [FU 4] (* general.go:846-848 StatusMask *)
  | general_AccessoryStatusNotification => [FU 1; FBytes] (* general.go:849-852 StatusType StatusParams *)
  | general_SetEventNotification => [FU 8] (* general.go:854-856 EventMask *)
  | general_IPodNotification => [FU 1; FBytes] (* general.go:857-860 NotificationType Data *)
  | general_GetiPodOptionsForLingo => [FU 1] (* general.go:862-864 LingoID *)
  | general_RetiPodOptionsForLingo => [FU 1; FU 8] (* general.go:865-868 LingoID Options *)
  | general_GetEventNotification => [] (* general.go:869-869  *)
  | general_RetEventNotification => [FU 8] (* general.go:871-873 EventMask *)
  | general_GetSupportedEventNotification => [] (* general.go:874-874  *)
  | general_CancelCommand => [FU 1; FU 2; FU 2] (* general.go:876-880 LingoID CmdID TransactionID *)
  | general_RetSupportedEventNotification => [FU 8] (* general.go:881-883 EventMask *)
  | general_SetAvailableCurrent => [FU 2] (* general.go:884-886 CurrentLimit *)
  | general_RequestApplicationLaunch => [FU 1; FU 1; FU 1; FBytes] (* general.go:887-892 Reserved0 Reserved1 Reserved2 AppID *)
  | general_GetNowPlayingFocusApp => [] (* general.go:902-902  *)
  | general_RetNowPlayingFocusApp => [FBytes] (* general.go:904-906 AppID *)
  | simple_ButtonStates => [FU 4; FBlank] (* simpleremote.go:40-44 ButtonStates _ *)
  | simple_ContextButtonStatus => [FU 4; FBlank] (* simpleremote.go:117-120 State _ *)
  | simple_ACK => [] (* simpleremote.go:136-136  *)
  | simple_VideoButtonStatus => [FU 4; FBlank] (* simpleremote.go:137-139 ButtonStates _ *)
  | simple_AudioButtonStatus => [FU 4; FBlank] (* simpleremote.go:140-142 ButtonStates _ *)
  | simple_iPodOutButtonStatus => [FU 1] (* simpleremote.go:143-146 ButtonSource *)
  | simple_RotationInputStatus => [] (* simpleremote.go:148-148  *)
  | simple_RadioButtonStatus => [] (* simpleremote.go:149-149  *)
  | simple_CameraButtonStatus => [] (* simpleremote.go:150-150  *)
  | simple_RegisterDescriptor => [] (* simpleremote.go:151-151  *)
  | simple_SendHIDReportToiPod => [] (* simpleremote.go:152-152  *)
  | simple_SendHIDReportToAcc => [] (* simpleremote.go:153-153  *)
  | simple_UnregisterDescriptor => [] (* simpleremote.go:154-154  *)
  | simple_AccessibilityEvent => [] (* simpleremote.go:155-155  *)
  | simple_GetAccessibilityParameter => [] (* simpleremote.go:156-156  *)
  | simple_RetAccessibilityParameter => [] (* simpleremote.go:157-157  *)
  | simple_SetAccessibilityParameter => [] (* simpleremote.go:158-158  *)
  | simple_GetCurrentItemProperty => [] (* simpleremote.go:159-159  *)
  | simple_RetCurrentItemProperty => [] (* simpleremote.go:160-160  *)
  | simple_SetContext => [] (* simpleremote.go:161-161  *)
  | simple_AccParameterChanged => [] (* simpleremote.go:162-162  *)
  | simple_DevACK => [] (* simpleremote.go:163-163  *)
  | disp_ACK => [FU 1; FU 1] (* dispremote.go:58-61 Status CmdID *)
  | disp_GetCurrentEQProfileIndex => [] (* dispremote.go:62-63  *)
  | disp_RetCurrentEQProfileIndex => [FU 4] (* dispremote.go:64-66 CurrentEQIndex *)
  | disp_SetCurrentEQProfileIndex => [FU 4; FBool] (* dispremote.go:67-70 CurrentEQIndex RestoreOnExit *)
  | disp_GetNumEQProfiles => [] (* dispremote.go:71-72  *)
  | disp_RetNumEQProfiles => [FU 4] (* dispremote.go:73-75 NumEQProfiles *)
  | disp_GetIndexedEQProfileName => [FU 4] (* dispremote.go:76-78 EQProfileIndex *)
  | disp_RetIndexedEQProfileName => [FBytes] (* dispremote.go:79-81 EQProfileName *)
  | disp_SetRemoteEventNotification => [FU 4] (* dispremote.go:82-84 EventMask *)
  | disp_RemoteEventNotification => [FU 1; FBytes] (* dispremote.go:85-88 EventNum EventData *)
  | disp_GetRemoteEventStatus => [] (* dispremote.go:89-90  *)
  | disp_RetRemoteEventStatus => [FU 4] (* dispremote.go:91-93 EventStatus *)
  | disp_InfoTrackPositionMs => [FU 4] (* dispremote.go:118-120 TrackPositionMs *)
  | disp_InfoTrackIndex => [FU 4] (* dispremote.go:121-123 TrackIndex *)
  | disp_InfoChapterIndex => [FU 4; FU 2; FU 2] (* dispremote.go:124-128 TrackIndex ChapterCount ChapterIndex *)
  | disp_InfoPlayStatus => [FU 1] (* dispremote.go:142-144 PlayStatus *)
  | disp_InfoVolume => [FU 1; FU 1] (* dispremote.go:145-148 MuteState UIVolumeLevel *)
  | disp_InfoPower => [FU 1; FU 1] (* dispremote.go:149-152 PowerState BatteryLevel *)
  | disp_InfoEqualizer => [FU 4] (* dispremote.go:153-155 EqIndex *)
  | disp_InfoShuffle => [FU 1] (* dispremote.go:156-158 ShuffleState *)
  | disp_InfoRepeat => [FU 1] (* dispremote.go:159-161 RepeatState *)
  | disp_InfoDateTime => [FU 2; FU 1; FU 1; FU 1; FU 1] (* dispremote.go:162-168 Year Month Day Hour Minute *)
  | disp_InfoBacklight => [FU 1] (* dispremote.go:169-171 BacklightLevel *)
  | disp_InfoHoldSwitch => [FU 1] (* dispremote.go:172-174 HoldSwitchState *)
  | disp_InfoSoundCheck => [FU 1] (* dispremote.go:175-177 SoundCheckState *)
  | disp_InfoAudiobookSpeed => [FU 1] (* dispremote.go:178-180 PlaybackSpeed *)
  | disp_InfoTrackPositionSec => [FU 2] (* dispremote.go:181-183 TrackPositionSec *)
  | disp_InfoVolume2 => [FU 1; FU 1; FU 1] (* dispremote.go:184-188 MuteState UIVolumeLevel AbsoluteVolumeLevel *)
  | disp_GetiPodStateInfo => [FU 1] (* dispremote.go:190-192 InfoType *)
  | disp_RetiPodStateInfo => [FU 1; FIface] (* dispremote.go:193-196 InfoType InfoData *)
  | disp_SetiPodStateInfo => [FU 1; FU 1] (* dispremote.go:247-250 InfoType InfoData *)
  | disp_GetPlayStatus => [] (* dispremote.go:251-252  *)
  | disp_RetPlayStatus => [FU 1; FU 4; FU 4; FU 4] (* dispremote.go:253-258 PlayState TrackIndex TrackLength TrackPos *)
  | disp_SetCurrentPlayingTrack => [FU 4] (* dispremote.go:259-261 TrackIndex *)
  | disp_GetIndexedPlayingTrackInfo => [FU 1; FU 4; FU 2] (* dispremote.go:278-282 InfoType TrackIndex ChapterIndex *)
  | disp_TrackInfoCaps => [FU 4; FU 4; FU 2] (* dispremote.go:284-288 Caps TrackTotalMs ChapterCount *)
  | disp_TrackInfoChapterTimeName => [FU 4; FBytes] (* dispremote.go:289-292 ChapterTime ChapterName *)
  | disp_TrackInfoArtist => [FBytes] (* dispremote.go:293-295 Name *)
  | disp_TrackInfoAlbum => [FBytes] (* dispremote.go:296-298 Name *)
  | disp_TrackInfoGenre => [FBytes] (* dispremote.go:299-301 Name *)
  | disp_TrackInfoTrack => [FBytes] (* dispremote.go:302-304 Title *)
  | disp_TrackInfoComposer => [FBytes] (* dispremote.go:305-307 Name *)
  | disp_TrackInfoLyrics => [FU 1; FU 2; FBytes] (* dispremote.go:308-312 Flags PacketIndex Lyrics *)
  | disp_TrackInfoArtworkCount => [FU 1] (* dispremote.go:313-315 None *)
  | disp_RetIndexedPlayingTrackInfo => [FU 1; FIface] (* dispremote.go:317-320 InfoType InfoData *)
  | disp_GetNumPlayingTracks => [] (* dispremote.go:374-375  *)
  | disp_RetNumPlayingTracks => [FU 4] (* dispremote.go:376-378 NumPlayTracks *)
  | disp_GetArtworkFormats => [] (* dispremote.go:379-380  *)
  | disp_ArtworkFormat => [FU 2; FU 1; FU 2; FU 2] (* dispremote.go:382-387 FormatID PixelFormat ImageWidth ImageHeight *)
  | disp_RetArtworkFormats => [FStructs] (* dispremote.go:388-390 Formats *)
  | disp_GetTrackArtworkData => [FU 4; FU 2; FU 4] (* dispremote.go:391-395 TrackIndex FormatID TimeOffset *)
  | disp_RetTrackArtworkData => [] (* dispremote.go:396-398  *)
  | disp_GetPowerBatteryState => [] (* dispremote.go:399-400  *)
  | disp_RetPowerBatteryState => [FU 1; FU 1] (* dispremote.go:401-404 PowerState BatteryLevel *)
  | disp_GetSoundCheckState => [] (* dispremote.go:405-406  *)
  | disp_RetSoundCheckState => [FBool] (* dispremote.go:407-409 Enabled *)
  | disp_SetSoundCheckState => [FBool; FBool] (* dispremote.go:410-413 Enabled RestoreOnExit *)
  | disp_GetTrackArtworkTimes => [FU 4; FU 2; FU 2; FU 2] (* dispremote.go:414-419 TrackIndex FormatID ArtworkIndex ArtworkCount *)
  | disp_RetTrackArtworkTimes => [FU32s] (* dispremote.go:420-422 TimeOffset *)
  | ext_ACK => [FU 1; FU 2] (* extremote.go:89-92 Status CmdID *)
  | ext_GetCurrentPlayingTrackChapterInfo => [] (* extremote.go:93-94  *)
  | ext_ReturnCurrentPlayingTrackChapterInfo => [FI 4; FI 4] (* extremote.go:95-98 CurrentChapterIndex ChapterCount *)
  | ext_SetCurrentPlayingTrackChapter => [FI 4] (* extremote.go:99-101 ChapterIndex *)
  | ext_GetCurrentPlayingTrackChapterPlayStatus => [FI 4] (* extremote.go:102-104 CurrentChapterIndex *)
  | ext_ReturnCurrentPlayingTrackChapterPlayStatus => [FU 4; FU 4] (* extremote.go:105-108 ChapterLength ChapterPosition *)
  | ext_GetCurrentPlayingTrackChapterName => [FI 4] (* extremote.go:109-111 ChapterIndex *)
  | ext_ReturnCurrentPlayingTrackChapterName => [FBytes] (* extremote.go:112-114 ChapterName *)
  | ext_GetAudiobookSpeed => [] (* extremote.go:115-116  *)
  | ext_ReturnAudiobookSpeed => [FU 1] (* extremote.go:118-120 Speed *)
  | ext_SetAudiobookSpeed => [FU 1] (* extremote.go:121-123 Speed *)
  | ext_TrackCaps => [FU 4; FU 4; FU 2] (* extremote.go:138-142 Caps TrackLength ChapterCount *)
  | ext_TrackReleaseDate => [FU 8] (* extremote.go:144-146 Pad *)
  | ext_TrackLongText => [FU 1; FU 2; FU 1] (* extremote.go:148-152 Flags PacketIndex Text *)
  | ext_GetIndexedPlayingTrackInfo => [FU 1; FI 4; FI 2] (* extremote.go:154-158 InfoType TrackIndex ChapterIndex *)
  | ext_ReturnIndexedPlayingTrackInfo => [FU 1; FIface] (* extremote.go:159-162 InfoType Info *)
  | ext_GetArtworkFormats => [] (* extremote.go:195-196  *)
  | ext_ArtworkFormat => [FU 2; FU 1; FU 2; FU 2] (* extremote.go:198-203 FormatID PixelFormat ImageWidth ImageHeight *)
  | ext_RetArtworkFormats => [FStructs] (* extremote.go:204-206 Formats *)
  | ext_GetTrackArtworkData => [FI 4; FU 2; FU 4] (* extremote.go:233-237 TrackIndex FormatID Offset *)
  | ext_RetTrackArtworkData => [FU 2; FU 1; FU 2; FU 2; FU 2; FU 2; FU 2; FU 2; FU 4; FBytes] (* extremote.go:238-250 PacketIndex PixelFormat ImageWidth ImageHeight TopLeftX TopLeftY BottomRightX BottomRightY RowSize Data *)
  | ext_ResetDBSelection => [] (* extremote.go:253-254  *)
  | ext_SelectDBRecord => [FU 1; FI 4] (* extremote.go:270-273 CategoryType RecordIndex *)
  | ext_GetNumberCategorizedDBRecords => [FU 1] (* extremote.go:274-276 CategoryType *)
  | ext_ReturnNumberCategorizedDBRecords => [FI 4] (* extremote.go:277-279 RecordCount *)
  | ext_RetrieveCategorizedDatabaseRecords => [FU 1; FU 4; FI 4] (* extremote.go:280-284 CategoryType Offset Count *)
  | ext_ReturnCategorizedDatabaseRecord => [FU 4; FArr 16] (* extremote.go:285-288 RecordCategoryIndex String *)
  | ext_GetPlayStatus => [] (* extremote.go:289-290  *)
  | ext_ReturnPlayStatus => [FU 4; FU 4; FU 1] (* extremote.go:301-305 TrackLength TrackPosition State *)
  | ext_GetCurrentPlayingTrackIndex => [] (* extremote.go:307-308  *)
  | ext_ReturnCurrentPlayingTrackIndex => [FI 4] (* extremote.go:309-311 TrackIndex *)
  | ext_GetIndexedPlayingTrackTitle => [FI 4] (* extremote.go:312-314 TrackIndex *)
  | ext_ReturnIndexedPlayingTrackTitle => [FBytes] (* extremote.go:315-317 Title *)
  | ext_GetIndexedPlayingTrackArtistName => [FI 4] (* extremote.go:329-331 TrackIndex *)
  | ext_ReturnIndexedPlayingTrackArtistName => [FBytes] (* extremote.go:332-334 ArtistName *)
  | ext_GetIndexedPlayingTrackAlbumName => [FI 4] (* extremote.go:346-348 TrackIndex *)
  | ext_ReturnIndexedPlayingTrackAlbumName => [FBytes] (* extremote.go:349-351 AlbumName *)
  | ext_SetPlayStatusChangeNotification => [FU 4] (* extremote.go:363-365 EventMask *)
  | ext_SetPlayStatusChangeNotificationShort => [FBool] (* extremote.go:369-371 Enabled *)
  | ext_PlayStatusChangeNotification => [FU 1] (* extremote.go:372-374 Status *)
  | ext_PlayCurrentSelection => [FI 4] (* extremote.go:375-377 SelectedTrackIndex *)
  | ext_PlayControl => [FU 1] (* extremote.go:397-399 Cmd *)
  | ext_GetTrackArtworkTimes => [FI 4; FU 2; FU 2; FI 2] (* extremote.go:400-405 TrackIndex FormatID ArtworkIndex ArtworkCount *)
  | ext_RetTrackArtworkTimes => [] (* extremote.go:406-408  *)
  | ext_GetShuffle => [] (* extremote.go:418-419  *)
  | ext_ReturnShuffle => [FU 1] (* extremote.go:420-422 Mode *)
  | ext_SetShuffle => [FU 1] (* extremote.go:423-426 Mode *)
  | ext_GetRepeat => [] (* extremote.go:436-437  *)
  | ext_ReturnRepeat => [FU 1] (* extremote.go:438-440 Mode *)
  | ext_SetRepeat => [FU 1] (* extremote.go:441-444 Mode *)
  | ext_SetDisplayImage => [] (* extremote.go:445-447  *)
  | ext_GetMonoDisplayImageLimits => [] (* extremote.go:448-449  *)
  | ext_ReturnMonoDisplayImageLimits => [FU 2; FU 2; FU 1] (* extremote.go:450-454 MaxWidth MaxHeight PixelFormat *)
  | ext_GetNumPlayingTracks => [] (* extremote.go:455-456  *)
  | ext_ReturnNumPlayingTracks => [FU 4] (* extremote.go:457-459 NumTracks *)
  | ext_SetCurrentPlayingTrack => [FI 4] (* extremote.go:460-462 TrackIndex *)
  | ext_SelectSortDBRecord => [FU 1; FI 4; FU 1] (* extremote.go:463-467 CategoryType RecordIndex SortType *)
  | ext_GetColorDisplayImageLimits => [] (* extremote.go:468-469  *)
  | ext_ReturnColorDisplayImageLimits => [FU 2; FU 2; FU 1] (* extremote.go:470-474 MaxWidth MaxHeight PixelFormat *)
  | ext_ResetDBSelectionHierarchy => [FU 1] (* extremote.go:476-478 Selection *)
  | ext_GetDBiTunesInfo => [] (* extremote.go:479-480  *)
  | ext_RetDBiTunesInfo => [] (* extremote.go:481-482  *)
  | ext_GetUIDTrackInfo => [] (* extremote.go:483-484  *)
  | ext_RetUIDTrackInfo => [] (* extremote.go:485-486  *)
  | ext_GetDBTrackInfo => [] (* extremote.go:488-489  *)
  | ext_RetDBTrackInfo => [] (* extremote.go:490-491  *)
  | ext_GetPBTrackInfo => [] (* extremote.go:492-493  *)
  | ext_RetPBTrackInfo => [] (* extremote.go:494-495  *)
  | audio_AccAck => [FU 1; FU 1] (* audio.go:29-32 Status CmdID *)
  | audio_iPodAck => [FU 1; FU 1] (* audio.go:33-36 Status CmdID *)
  | audio_GetAccSampleRateCaps => [] (* audio.go:37-38  *)
  | audio_RetAccSampleRateCaps => [FU32s] (* audio.go:39-41 SampleRates *)
  | audio_TrackNewAudioAttributes => [FU 4; FU 4; FU 4] (* audio.go:54-58 SampleRate SoundCheckValue VolumeAdjustment *)
  | audio_SetVideoDelay => [FU 4] (* audio.go:59-61 Delay *)
  | anon_struct => []
  end.

(** reflect.Type.String() of each struct type: package and type name (lingo.go:124 prints it). *)
Definition type_name (t : pty) : string :=
  match t with
  | general_RequestIdentify => "general.RequestIdentify"
  | general_ACK => "general.ACK"
  | general_ACKPending => "general.ACKPending"
  | general_ACKDataDropped => "general.ACKDataDropped"
  | general_RequestRemoteUIMode => "general.RequestRemoteUIMode"
  | general_ReturnRemoteUIMode => "general.ReturnRemoteUIMode"
  | general_EnterRemoteUIMode => "general.EnterRemoteUIMode"
  | general_ExitRemoteUIMode => "general.ExitRemoteUIMode"
  | general_RequestiPodName => "general.RequestiPodName"
  | general_ReturniPodName => "general.ReturniPodName"
  | general_RequestiPodSoftwareVersion => "general.RequestiPodSoftwareVersion"
  | general_ReturniPodSoftwareVersion => "general.ReturniPodSoftwareVersion"
  | general_RequestiPodSerialNum => "general.RequestiPodSerialNum"
  | general_ReturniPodSerialNum => "general.ReturniPodSerialNum"
  | general_RequestiPodModelNum => "general.RequestiPodModelNum"
  | general_ReturniPodModelNum => "general.ReturniPodModelNum"
  | general_RequestLingoProtocolVersion => "general.RequestLingoProtocolVersion"
  | general_ReturnLingoProtocolVersion => "general.ReturnLingoProtocolVersion"
  | general_RequestTransportMaxPayloadSize => "general.RequestTransportMaxPayloadSize"
  | general_ReturnTransportMaxPayloadSize => "general.ReturnTransportMaxPayloadSize"
  | general_IdentifyDeviceLingoes => "general.IdentifyDeviceLingoes"
  | general_GetDevAuthenticationInfo => "general.GetDevAuthenticationInfo"
  | general_RetDevAuthenticationInfo => "general.RetDevAuthenticationInfo"
  | general_AckDevAuthenticationInfo => "general.AckDevAuthenticationInfo"
  | general_GetDevAuthenticationSignatureV1 => "general.GetDevAuthenticationSignatureV1"
  | general_GetDevAuthenticationSignatureV2 => "general.GetDevAuthenticationSignatureV2"
  | general_RetDevAuthenticationSignature => "general.RetDevAuthenticationSignature"
  | general_AckDevAuthenticationStatus => "general.AckDevAuthenticationStatus"
  | general_GetiPodAuthenticationInfo => "general.GetiPodAuthenticationInfo"
  | general_RetiPodAuthenticationInfo => "general.RetiPodAuthenticationInfo"
  | general_AckiPodAuthenticationInfo => "general.AckiPodAuthenticationInfo"
  | general_GetiPodAuthenticationSignature => "general.GetiPodAuthenticationSignature"
  | general_RetiPodAuthenticationSignature => "general.RetiPodAuthenticationSignature"
  | general_AckiPodAuthenticationStatus => "general.AckiPodAuthenticationStatus"
  | general_NotifyiPodStateChange => "general.NotifyiPodStateChange"
  | general_GetiPodOptions => "general.GetiPodOptions"
  | general_RetiPodOptions => "general.RetiPodOptions"
  | general_GetAccessoryInfo => "general.GetAccessoryInfo"
  | general_GetAccessoryInfo2 => "general.GetAccessoryInfo2"
  | general_GetAccessoryInfo3 => "general.GetAccessoryInfo3"
  | general_RetAccessoryInfo => "general.RetAccessoryInfo"
  | general_GetiPodPreferences => "general.GetiPodPreferences"
  | general_RetiPodPreferences => "general.RetiPodPreferences"
  | general_SetiPodPreferences => "general.SetiPodPreferences"
  | general_GetUIMode => "general.GetUIMode"
  | general_RetUIMode => "general.RetUIMode"
  | general_SetUIMode => "general.SetUIMode"
  | general_StartIDPS => "general.StartIDPS"
  | general_FIDIdentifyToken => "general.FIDIdentifyToken"
  | general_FIDAccCapsToken => "general.FIDAccCapsToken"
  | general_FIDAccInfoToken => "general.FIDAccInfoToken"
  | general_FIDiPodPreferenceToken => "general.FIDiPodPreferenceToken"
  | general_FIDEAProtocolToken => "general.FIDEAProtocolToken"
  | general_FIDBundleSeedIDPrefToken => "general.FIDBundleSeedIDPrefToken"
  | general_FIDScreenInfoToken => "general.FIDScreenInfoToken"
  | general_FIDEAProtocolMetadataToken => "general.FIDEAProtocolMetadataToken"
  | general_FIDMicrophoneCapsToken => "general.FIDMicrophoneCapsToken"
  | general_TokenID => "general.TokenID"
  | general_FIDTokenValue => "general.FIDTokenValue"
  | general_SetFIDTokenValues => "general.SetFIDTokenValues"
  | general_FIDTokenValueACK => "general.FIDTokenValueACK"
  | general_RetFIDTokenValueACKs => "general.RetFIDTokenValueACKs"
  | general_EndIDPS => "general.EndIDPS"
  | general_IDPSStatus => "general.IDPSStatus"
  | general_OpenDataSessionForProtocol => "general.OpenDataSessionForProtocol"
  | general_CloseDataSession => "general.CloseDataSession"
  | general_DevACK => "general.DevACK"
  | general_DevDataTransfer => "general.DevDataTransfer"
  | general_IPodDataTransfer => "general.IPodDataTransfer"
  | general_SetAccStatusNotification => "general.SetAccStatusNotification"
  | general_RetAccStatusNotification => "general.RetAccStatusNotification"
  | general_AccessoryStatusNotification => "general.AccessoryStatusNotification"
  | general_SetEventNotification => "general.SetEventNotification"
  | general_IPodNotification => "general.IPodNotification"
  | general_GetiPodOptionsForLingo => "general.GetiPodOptionsForLingo"
  | general_RetiPodOptionsForLingo => "general.RetiPodOptionsForLingo"
  | general_GetEventNotification => "general.GetEventNotification"
  | general_RetEventNotification => "general.RetEventNotification"
  | general_GetSupportedEventNotification => "general.GetSupportedEventNotification"
  | general_CancelCommand => "general.CancelCommand"
  | general_RetSupportedEventNotification => "general.RetSupportedEventNotification"
  | general_SetAvailableCurrent => "general.SetAvailableCurrent"
  | general_RequestApplicationLaunch => "general.RequestApplicationLaunch"
  | general_GetNowPlayingFocusApp => "general.GetNowPlayingFocusApp"
  | general_RetNowPlayingFocusApp => "general.RetNowPlayingFocusApp"
  | simple_ButtonStates => "simpleremote.ButtonStates"
  | simple_ContextButtonStatus => "simpleremote.ContextButtonStatus"
  | simple_ACK => "simpleremote.ACK"
  | simple_VideoButtonStatus => "simpleremote.VideoButtonStatus"
  | simple_AudioButtonStatus => "simpleremote.AudioButtonStatus"
  | simple_iPodOutButtonStatus => "simpleremote.iPodOutButtonStatus"
  | simple_RotationInputStatus => "simpleremote.RotationInputStatus"
  | simple_RadioButtonStatus => "simpleremote.RadioButtonStatus"
  | simple_CameraButtonStatus => "simpleremote.CameraButtonStatus"
  | simple_RegisterDescriptor => "simpleremote.RegisterDescriptor"
  | simple_SendHIDReportToiPod => "simpleremote.SendHIDReportToiPod"
  | simple_SendHIDReportToAcc => "simpleremote.SendHIDReportToAcc"
  | simple_UnregisterDescriptor => "simpleremote.UnregisterDescriptor"
  | simple_AccessibilityEvent => "simpleremote.AccessibilityEvent"
  | simple_GetAccessibilityParameter => "simpleremote.GetAccessibilityParameter"
  | simple_RetAccessibilityParameter => "simpleremote.RetAccessibilityParameter"
  | simple_SetAccessibilityParameter => "simpleremote.SetAccessibilityParameter"
  | simple_GetCurrentItemProperty => "simpleremote.GetCurrentItemProperty"
  | simple_RetCurrentItemProperty => "simpleremote.RetCurrentItemProperty"
  | simple_SetContext => "simpleremote.SetContext"
  | simple_AccParameterChanged => "simpleremote.AccParameterChanged"
  | simple_DevACK => "simpleremote.DevACK"
  | disp_ACK => "dispremote.ACK"
  | disp_GetCurrentEQProfileIndex => "dispremote.GetCurrentEQProfileIndex"
  | disp_RetCurrentEQProfileIndex => "dispremote.RetCurrentEQProfileIndex"
  | disp_SetCurrentEQProfileIndex => "dispremote.SetCurrentEQProfileIndex"
  | disp_GetNumEQProfiles => "dispremote.GetNumEQProfiles"
  | disp_RetNumEQProfiles => "dispremote.RetNumEQProfiles"
  | disp_GetIndexedEQProfileName => "dispremote.GetIndexedEQProfileName"
  | disp_RetIndexedEQProfileName => "dispremote.RetIndexedEQProfileName"
  | disp_SetRemoteEventNotification => "dispremote.SetRemoteEventNotification"
  | disp_RemoteEventNotification => "dispremote.RemoteEventNotification"
  | disp_GetRemoteEventStatus => "dispremote.GetRemoteEventStatus"
  | disp_RetRemoteEventStatus => "dispremote.RetRemoteEventStatus"
  | disp_InfoTrackPositionMs => "dispremote.InfoTrackPositionMs"
  | disp_InfoTrackIndex => "dispremote.InfoTrackIndex"
  | disp_InfoChapterIndex => "dispremote.InfoChapterIndex"
  | disp_InfoPlayStatus => "dispremote.InfoPlayStatus"
  | disp_InfoVolume => "dispremote.InfoVolume"
  | disp_InfoPower => "dispremote.InfoPower"
  | disp_InfoEqualizer => "dispremote.InfoEqualizer"
  | disp_InfoShuffle => "dispremote.InfoShuffle"
  | disp_InfoRepeat => "dispremote.InfoRepeat"
  | disp_InfoDateTime => "dispremote.InfoDateTime"
  | disp_InfoBacklight => "dispremote.InfoBacklight"
  | disp_InfoHoldSwitch => "dispremote.InfoHoldSwitch"
  | disp_InfoSoundCheck => "dispremote.InfoSoundCheck"
  | disp_InfoAudiobookSpeed => "dispremote.InfoAudiobookSpeed"
  | disp_InfoTrackPositionSec => "dispremote.InfoTrackPositionSec"
  | disp_InfoVolume2 => "dispremote.InfoVolume2"
  | disp_GetiPodStateInfo => "dispremote.GetiPodStateInfo"
  | disp_RetiPodStateInfo => "dispremote.RetiPodStateInfo"
  | disp_SetiPodStateInfo => "dispremote.SetiPodStateInfo"
  | disp_GetPlayStatus => "dispremote.GetPlayStatus"
  | disp_RetPlayStatus => "dispremote.RetPlayStatus"
  | disp_SetCurrentPlayingTrack => "dispremote.SetCurrentPlayingTrack"
  | disp_GetIndexedPlayingTrackInfo => "dispremote.GetIndexedPlayingTrackInfo"
  | disp_TrackInfoCaps => "dispremote.TrackInfoCaps"
  | disp_TrackInfoChapterTimeName => "dispremote.TrackInfoChapterTimeName"
  | disp_TrackInfoArtist => "dispremote.TrackInfoArtist"
  | disp_TrackInfoAlbum => "dispremote.TrackInfoAlbum"
  | disp_TrackInfoGenre => "dispremote.TrackInfoGenre"
  | disp_TrackInfoTrack => "dispremote.TrackInfoTrack"
  | disp_TrackInfoComposer => "dispremote.TrackInfoComposer"
  | disp_TrackInfoLyrics => "dispremote.TrackInfoLyrics"
  | disp_TrackInfoArtworkCount => "dispremote.TrackInfoArtworkCount"
  | disp_RetIndexedPlayingTrackInfo => "dispremote.RetIndexedPlayingTrackInfo"
  | disp_GetNumPlayingTracks => "dispremote.GetNumPlayingTracks"
  | disp_RetNumPlayingTracks => "dispremote.RetNumPlayingTracks"
  | disp_GetArtworkFormats => "dispremote.GetArtworkFormats"
  | disp_ArtworkFormat => "dispremote.ArtworkFormat"
  | disp_RetArtworkFormats => "dispremote.RetArtworkFormats"
  | disp_GetTrackArtworkData => "dispremote.GetTrackArtworkData"
  | disp_RetTrackArtworkData => "dispremote.RetTrackArtworkData"
  | disp_GetPowerBatteryState => "dispremote.GetPowerBatteryState"
  | disp_RetPowerBatteryState => "dispremote.RetPowerBatteryState"
  | disp_GetSoundCheckState => "dispremote.GetSoundCheckState"
  | disp_RetSoundCheckState => "dispremote.RetSoundCheckState"
  | disp_SetSoundCheckState => "dispremote.SetSoundCheckState"
  | disp_GetTrackArtworkTimes => "dispremote.GetTrackArtworkTimes"
  | disp_RetTrackArtworkTimes => "dispremote.RetTrackArtworkTimes"
  | ext_ACK => "extremote.ACK"
  | ext_GetCurrentPlayingTrackChapterInfo => "extremote.GetCurrentPlayingTrackChapterInfo"
  | ext_ReturnCurrentPlayingTrackChapterInfo => "extremote.ReturnCurrentPlayingTrackChapterInfo"
  | ext_SetCurrentPlayingTrackChapter => "extremote.SetCurrentPlayingTrackChapter"
  | ext_GetCurrentPlayingTrackChapterPlayStatus => "extremote.GetCurrentPlayingTrackChapterPlayStatus"
  | ext_ReturnCurrentPlayingTrackChapterPlayStatus => "extremote.ReturnCurrentPlayingTrackChapterPlayStatus"
  | ext_GetCurrentPlayingTrackChapterName => "extremote.GetCurrentPlayingTrackChapterName"
  | ext_ReturnCurrentPlayingTrackChapterName => "extremote.ReturnCurrentPlayingTrackChapterName"
  | ext_GetAudiobookSpeed => "extremote.GetAudiobookSpeed"
  | ext_ReturnAudiobookSpeed => "extremote.ReturnAudiobookSpeed"
  | ext_SetAudiobookSpeed => "extremote.SetAudiobookSpeed"
  | ext_TrackCaps => "extremote.TrackCaps"
  | ext_TrackReleaseDate => "extremote.TrackReleaseDate"
  | ext_TrackLongText => "extremote.TrackLongText"
  | ext_GetIndexedPlayingTrackInfo => "extremote.GetIndexedPlayingTrackInfo"
  | ext_ReturnIndexedPlayingTrackInfo => "extremote.ReturnIndexedPlayingTrackInfo"
  | ext_GetArtworkFormats => "extremote.GetArtworkFormats"
  | ext_ArtworkFormat => "extremote.ArtworkFormat"
  | ext_RetArtworkFormats => "extremote.RetArtworkFormats"
  | ext_GetTrackArtworkData => "extremote.GetTrackArtworkData"
  | ext_RetTrackArtworkData => "extremote.RetTrackArtworkData"
  | ext_ResetDBSelection => "extremote.ResetDBSelection"
  | ext_SelectDBRecord => "extremote.SelectDBRecord"
  | ext_GetNumberCategorizedDBRecords => "extremote.GetNumberCategorizedDBRecords"
  | ext_ReturnNumberCategorizedDBRecords => "extremote.ReturnNumberCategorizedDBRecords"
  | ext_RetrieveCategorizedDatabaseRecords => "extremote.RetrieveCategorizedDatabaseRecords"
  | ext_ReturnCategorizedDatabaseRecord => "extremote.ReturnCategorizedDatabaseRecord"
  | ext_GetPlayStatus => "extremote.GetPlayStatus"
  | ext_ReturnPlayStatus => "extremote.ReturnPlayStatus"
  | ext_GetCurrentPlayingTrackIndex => "extremote.GetCurrentPlayingTrackIndex"
  | ext_ReturnCurrentPlayingTrackIndex => "extremote.ReturnCurrentPlayingTrackIndex"
  | ext_GetIndexedPlayingTrackTitle => "extremote.GetIndexedPlayingTrackTitle"
  | ext_ReturnIndexedPlayingTrackTitle => "extremote.ReturnIndexedPlayingTrackTitle"
  | ext_GetIndexedPlayingTrackArtistName => "extremote.GetIndexedPlayingTrackArtistName"
  | ext_ReturnIndexedPlayingTrackArtistName => "extremote.ReturnIndexedPlayingTrackArtistName"
  | ext_GetIndexedPlayingTrackAlbumName => "extremote.GetIndexedPlayingTrackAlbumName"
  | ext_ReturnIndexedPlayingTrackAlbumName => "extremote.ReturnIndexedPlayingTrackAlbumName"
  | ext_SetPlayStatusChangeNotification => "extremote.SetPlayStatusChangeNotification"
  | ext_SetPlayStatusChangeNotificationShort => "extremote.SetPlayStatusChangeNotificationShort"
  | ext_PlayStatusChangeNotification => "extremote.PlayStatusChangeNotification"
  | ext_PlayCurrentSelection => "extremote.PlayCurrentSelection"
  | ext_PlayControl => "extremote.PlayControl"
  | ext_GetTrackArtworkTimes => "extremote.GetTrackArtworkTimes"
  | ext_RetTrackArtworkTimes => "extremote.RetTrackArtworkTimes"
  | ext_GetShuffle => "extremote.GetShuffle"
  | ext_ReturnShuffle => "extremote.ReturnShuffle"
  | ext_SetShuffle => "extremote.SetShuffle"
  | ext_GetRepeat => "extremote.GetRepeat"
  | ext_ReturnRepeat => "extremote.ReturnRepeat"
  | ext_SetRepeat => "extremote.SetRepeat"
  | ext_SetDisplayImage => "extremote.SetDisplayImage"
  | ext_GetMonoDisplayImageLimits => "extremote.GetMonoDisplayImageLimits"
  | ext_ReturnMonoDisplayImageLimits => "extremote.ReturnMonoDisplayImageLimits"
  | ext_GetNumPlayingTracks => "extremote.GetNumPlayingTracks"
  | ext_ReturnNumPlayingTracks => "extremote.ReturnNumPlayingTracks"
  | ext_SetCurrentPlayingTrack => "extremote.SetCurrentPlayingTrack"
  | ext_SelectSortDBRecord => "extremote.SelectSortDBRecord"
  | ext_GetColorDisplayImageLimits => "extremote.GetColorDisplayImageLimits"
  | ext_ReturnColorDisplayImageLimits => "extremote.ReturnColorDisplayImageLimits"
  | ext_ResetDBSelectionHierarchy => "extremote.ResetDBSelectionHierarchy"
  | ext_GetDBiTunesInfo => "extremote.GetDBiTunesInfo"
  | ext_RetDBiTunesInfo => "extremote.RetDBiTunesInfo"
  | ext_GetUIDTrackInfo => "extremote.GetUIDTrackInfo"
  | ext_RetUIDTrackInfo => "extremote.RetUIDTrackInfo"
  | ext_GetDBTrackInfo => "extremote.GetDBTrackInfo"
  | ext_RetDBTrackInfo => "extremote.RetDBTrackInfo"
  | ext_GetPBTrackInfo => "extremote.GetPBTrackInfo"
  | ext_RetPBTrackInfo => "extremote.RetPBTrackInfo"
  | audio_AccAck => "audio.AccAck"
  | audio_iPodAck => "audio.iPodAck"
  | audio_GetAccSampleRateCaps => "audio.GetAccSampleRateCaps"
  | audio_RetAccSampleRateCaps => "audio.RetAccSampleRateCaps"
  | audio_TrackNewAudioAttributes => "audio.TrackNewAudioAttributes"
  | audio_SetVideoDelay => "audio.SetVideoDelay"
  | anon_struct => "struct {}"
  end%string.

(** All struct types, and the position of each (used only to compare types). *)
Definition all_types : list pty :=
  [general_RequestIdentify;
   general_ACK;
   general_ACKPending;
   general_ACKDataDropped;
   general_RequestRemoteUIMode;
   general_ReturnRemoteUIMode;
   general_EnterRemoteUIMode;
   general_ExitRemoteUIMode;
   general_RequestiPodName;
   general_ReturniPodName;
   general_RequestiPodSoftwareVersion;
   general_ReturniPodSoftwareVersion;
   general_RequestiPodSerialNum;
   general_ReturniPodSerialNum;
   general_RequestiPodModelNum;
   general_ReturniPodModelNum;
   general_RequestLingoProtocolVersion;
   general_ReturnLingoProtocolVersion;
   general_RequestTransportMaxPayloadSize;
   general_ReturnTransportMaxPayloadSize;
   general_IdentifyDeviceLingoes;
   general_GetDevAuthenticationInfo;
   general_RetDevAuthenticationInfo;
   general_AckDevAuthenticationInfo;
   general_GetDevAuthenticationSignatureV1;
   general_GetDevAuthenticationSignatureV2;
   general_RetDevAuthenticationSignature;
   general_AckDevAuthenticationStatus;
   general_GetiPodAuthenticationInfo;
   general_RetiPodAuthenticationInfo;
   general_AckiPodAuthenticationInfo;
   general_GetiPodAuthenticationSignature;
   general_RetiPodAuthenticationSignature;
   general_AckiPodAuthenticationStatus;
   general_NotifyiPodStateChange;
   general_GetiPodOptions;
   general_RetiPodOptions;
   general_GetAccessoryInfo;
   general_GetAccessoryInfo2;
   general_GetAccessoryInfo3;
   general_RetAccessoryInfo;
   general_GetiPodPreferences;
   general_RetiPodPreferences;
   general_SetiPodPreferences;
   general_GetUIMode;
   general_RetUIMode;
   general_SetUIMode;
   general_StartIDPS;
   general_FIDIdentifyToken;
   general_FIDAccCapsToken;
   general_FIDAccInfoToken;
   general_FIDiPodPreferenceToken;
   general_FIDEAProtocolToken;
   general_FIDBundleSeedIDPrefToken;
   general_FIDScreenInfoToken;
   general_FIDEAProtocolMetadataToken;
   general_FIDMicrophoneCapsToken;
   general_TokenID;
   general_FIDTokenValue;
   general_SetFIDTokenValues;
   general_FIDTokenValueACK;
   general_RetFIDTokenValueACKs;
   general_EndIDPS;
   general_IDPSStatus;
   general_OpenDataSessionForProtocol;
   general_CloseDataSession;
   general_DevACK;
   general_DevDataTransfer;
   general_IPodDataTransfer;
   general_SetAccStatusNotification;
   general_RetAccStatusNotification;
   general_AccessoryStatusNotification;
   general_SetEventNotification;
   general_IPodNotification;
   general_GetiPodOptionsForLingo;
   general_RetiPodOptionsForLingo;
   general_GetEventNotification;
   general_RetEventNotification;
   general_GetSupportedEventNotification;
   general_CancelCommand;
   general_RetSupportedEventNotification;
   general_SetAvailableCurrent;
   general_RequestApplicationLaunch;
   general_GetNowPlayingFocusApp;
   general_RetNowPlayingFocusApp;
   simple_ButtonStates;
   simple_ContextButtonStatus;
   simple_ACK;
   simple_VideoButtonStatus;
   simple_AudioButtonStatus;
   simple_iPodOutButtonStatus;
   simple_RotationInputStatus;
   simple_RadioButtonStatus;
   simple_CameraButtonStatus;
   simple_RegisterDescriptor;
   simple_SendHIDReportToiPod;
   simple_SendHIDReportToAcc;
   simple_UnregisterDescriptor;
   simple_AccessibilityEvent;
   simple_GetAccessibilityParameter;
   simple_RetAccessibilityParameter;
   simple_SetAccessibilityParameter;
   simple_GetCurrentItemProperty;
   simple_RetCurrentItemProperty;
   simple_SetContext;
   simple_AccParameterChanged;
   simple_DevACK;
   disp_ACK;
   disp_GetCurrentEQProfileIndex;
   disp_RetCurrentEQProfileIndex;
   disp_SetCurrentEQProfileIndex;
   disp_GetNumEQProfiles;
   disp_RetNumEQProfiles;
   disp_GetIndexedEQProfileName;
   disp_RetIndexedEQProfileName;
   disp_SetRemoteEventNotification;
   disp_RemoteEventNotification;
   disp_GetRemoteEventStatus;
   disp_RetRemoteEventStatus;
   disp_InfoTrackPositionMs;
   disp_InfoTrackIndex;
   disp_InfoChapterIndex;
   disp_InfoPlayStatus;
   disp_InfoVolume;
   disp_InfoPower;
   disp_InfoEqualizer;
   disp_InfoShuffle;
   disp_InfoRepeat;
   disp_InfoDateTime;
   disp_InfoBacklight;
   disp_InfoHoldSwitch;
   disp_InfoSoundCheck;
   disp_InfoAudiobookSpeed;
   disp_InfoTrackPositionSec;
   disp_InfoVolume2;
   disp_GetiPodStateInfo;
   disp_RetiPodStateInfo;
   disp_SetiPodStateInfo;
   disp_GetPlayStatus;
   disp_RetPlayStatus;
   disp_SetCurrentPlayingTrack;
   disp_GetIndexedPlayingTrackInfo;
   disp_TrackInfoCaps;
   disp_TrackInfoChapterTimeName;
   disp_TrackInfoArtist;
   disp_TrackInfoAlbum;
   disp_TrackInfoGenre;
   disp_TrackInfoTrack;
   disp_TrackInfoComposer;
   disp_TrackInfoLyrics;
   disp_TrackInfoArtworkCount;
   disp_RetIndexedPlayingTrackInfo;
   disp_GetNumPlayingTracks;
   disp_RetNumPlayingTracks;
   disp_GetArtworkFormats;
   disp_ArtworkFormat;
   disp_RetArtworkFormats;
   disp_GetTrackArtworkData;
   disp_RetTrackArtworkData;
   disp_GetPowerBatteryState;
   disp_RetPowerBatteryState;
   disp_GetSoundCheckState;
   disp_RetSoundCheckState;
   disp_SetSoundCheckState;
   disp_GetTrackArtworkTimes;
   disp_RetTrackArtworkTimes;
   ext_ACK;
   ext_GetCurrentPlayingTrackChapterInfo;
   ext_ReturnCurrentPlayingTrackChapterInfo;
   ext_SetCurrentPlayingTrackChapter;
   ext_GetCurrentPlayingTrackChapterPlayStatus;
   ext_ReturnCurrentPlayingTrackChapterPlayStatus;
   ext_GetCurrentPlayingTrackChapterName;
   ext_ReturnCurrentPlayingTrackChapterName;
   ext_GetAudiobookSpeed;
   ext_ReturnAudiobookSpeed;
   ext_SetAudiobookSpeed;
   ext_TrackCaps;
   ext_TrackReleaseDate;
   ext_TrackLongText;
   ext_GetIndexedPlayingTrackInfo;
   ext_ReturnIndexedPlayingTrackInfo;
   ext_GetArtworkFormats;
   ext_ArtworkFormat;
   ext_RetArtworkFormats;
   ext_GetTrackArtworkData;
   ext_RetTrackArtworkData;
   ext_ResetDBSelection;
   ext_SelectDBRecord;
   ext_GetNumberCategorizedDBRecords;
   ext_ReturnNumberCategorizedDBRecords;
   ext_RetrieveCategorizedDatabaseRecords;
   ext_ReturnCategorizedDatabaseRecord;
   ext_GetPlayStatus;
   ext_ReturnPlayStatus;
   ext_GetCurrentPlayingTrackIndex;
   ext_ReturnCurrentPlayingTrackIndex;
   ext_GetIndexedPlayingTrackTitle;
   ext_ReturnIndexedPlayingTrackTitle;
   ext_GetIndexedPlayingTrackArtistName;
   ext_ReturnIndexedPlayingTrackArtistName;
   ext_GetIndexedPlayingTrackAlbumName;
   ext_ReturnIndexedPlayingTrackAlbumName;
   ext_SetPlayStatusChangeNotification;
   ext_SetPlayStatusChangeNotificationShort;
   ext_PlayStatusChangeNotification;
   ext_PlayCurrentSelection;
   ext_PlayControl;
   ext_GetTrackArtworkTimes;
   ext_RetTrackArtworkTimes;
   ext_GetShuffle;
   ext_ReturnShuffle;
   ext_SetShuffle;
   ext_GetRepeat;
   ext_ReturnRepeat;
   ext_SetRepeat;
   ext_SetDisplayImage;
   ext_GetMonoDisplayImageLimits;
   ext_ReturnMonoDisplayImageLimits;
   ext_GetNumPlayingTracks;
   ext_ReturnNumPlayingTracks;
   ext_SetCurrentPlayingTrack;
   ext_SelectSortDBRecord;
   ext_GetColorDisplayImageLimits;
   ext_ReturnColorDisplayImageLimits;
   ext_ResetDBSelectionHierarchy;
   ext_GetDBiTunesInfo;
   ext_RetDBiTunesInfo;
   ext_GetUIDTrackInfo;
   ext_RetUIDTrackInfo;
   ext_GetDBTrackInfo;
   ext_RetDBTrackInfo;
   ext_GetPBTrackInfo;
   ext_RetPBTrackInfo;
   audio_AccAck;
   audio_iPodAck;
   audio_GetAccSampleRateCaps;
   audio_RetAccSampleRateCaps;
   audio_TrackNewAudioAttributes;
   audio_SetVideoDelay;
   anon_struct].
Definition pty_index (t : pty) : nat :=
  match t with
  | general_RequestIdentify => 0
  | general_ACK => 1
  | general_ACKPending => 2
  | general_ACKDataDropped => 3
  | general_RequestRemoteUIMode => 4
  | general_ReturnRemoteUIMode => 5
  | general_EnterRemoteUIMode => 6
  | general_ExitRemoteUIMode => 7
  | general_RequestiPodName => 8
  | general_ReturniPodName => 9
  | general_RequestiPodSoftwareVersion => 10
  | general_ReturniPodSoftwareVersion => 11
  | general_RequestiPodSerialNum => 12
  | general_ReturniPodSerialNum => 13
  | general_RequestiPodModelNum => 14
  | general_ReturniPodModelNum => 15
  | general_RequestLingoProtocolVersion => 16
  | general_ReturnLingoProtocolVersion => 17
  | general_RequestTransportMaxPayloadSize => 18
  | general_ReturnTransportMaxPayloadSize => 19
  | general_IdentifyDeviceLingoes => 20
  | general_GetDevAuthenticationInfo => 21
  | general_RetDevAuthenticationInfo => 22
  | general_AckDevAuthenticationInfo => 23
  | general_GetDevAuthenticationSignatureV1 => 24
  | general_GetDevAuthenticationSignatureV2 => 25
  | general_RetDevAuthenticationSignature => 26
  | general_AckDevAuthenticationStatus => 27
  | general_GetiPodAuthenticationInfo => 28
  | general_RetiPodAuthenticationInfo => 29
  | general_AckiPodAuthenticationInfo => 30
  | general_GetiPodAuthenticationSignature => 31
  | general_RetiPodAuthenticationSignature => 32
  | general_AckiPodAuthenticationStatus => 33
  | general_NotifyiPodStateChange => 34
  | general_GetiPodOptions => 35
  | general_RetiPodOptions => 36
  | general_GetAccessoryInfo => 37
  | general_GetAccessoryInfo2 => 38
  | general_GetAccessoryInfo3 => 39
  | general_RetAccessoryInfo => 40
  | general_GetiPodPreferences => 41
  | general_RetiPodPreferences => 42
  | general_SetiPodPreferences => 43
  | general_GetUIMode => 44
  | general_RetUIMode => 45
  | general_SetUIMode => 46
  | general_StartIDPS => 47
  | general_FIDIdentifyToken => 48
  | general_FIDAccCapsToken => 49
  | general_FIDAccInfoToken => 50
  | general_FIDiPodPreferenceToken => 51
  | general_FIDEAProtocolToken => 52
  | general_FIDBundleSeedIDPrefToken => 53
  | general_FIDScreenInfoToken => 54
  | general_FIDEAProtocolMetadataToken => 55
  | general_FIDMicrophoneCapsToken => 56
  | general_TokenID => 57
  | general_FIDTokenValue => 58
  | general_SetFIDTokenValues => 59
  | general_FIDTokenValueACK => 60
  | general_RetFIDTokenValueACKs => 61
  | general_EndIDPS => 62
  | general_IDPSStatus => 63
  | general_OpenDataSessionForProtocol => 64
  | general_CloseDataSession => 65
  | general_DevACK => 66
  | general_DevDataTransfer => 67
  | general_IPodDataTransfer => 68
  | general_SetAccStatusNotification => 69
  | general_RetAccStatusNotification => 70
  | general_AccessoryStatusNotification => 71
  | general_SetEventNotification => 72
  | general_IPodNotification => 73
  | general_GetiPodOptionsForLingo => 74
  | general_RetiPodOptionsForLingo => 75
  | general_GetEventNotification => 76
  | general_RetEventNotification => 77
  | general_GetSupportedEventNotification => 78
  | general_CancelCommand => 79
  | general_RetSupportedEventNotification => 80
  | general_SetAvailableCurrent => 81
  | general_RequestApplicationLaunch => 82
  | general_GetNowPlayingFocusApp => 83
  | general_RetNowPlayingFocusApp => 84
  | simple_ButtonStates => 85
  | simple_ContextButtonStatus => 86
  | simple_ACK => 87
  | simple_VideoButtonStatus => 88
  | simple_AudioButtonStatus => 89
  | simple_iPodOutButtonStatus => 90
  | simple_RotationInputStatus => 91
  | simple_RadioButtonStatus => 92
  | simple_CameraButtonStatus => 93
  | simple_RegisterDescriptor => 94
  | simple_SendHIDReportToiPod => 95
  | simple_SendHIDReportToAcc => 96
  | simple_UnregisterDescriptor => 97
  | simple_AccessibilityEvent => 98
  | simple_GetAccessibilityParameter => 99
  | simple_RetAccessibilityParameter => 100
  | simple_SetAccessibilityParameter => 101
  | simple_GetCurrentItemProperty => 102
  | simple_RetCurrentItemProperty => 103
  | simple_SetContext => 104
  | simple_AccParameterChanged => 105
  | simple_DevACK => 106
  | disp_ACK => 107
  | disp_GetCurrentEQProfileIndex => 108
  | disp_RetCurrentEQProfileIndex => 109
  | disp_SetCurrentEQProfileIndex => 110
  | disp_GetNumEQProfiles => 111
  | disp_RetNumEQProfiles => 112
  | disp_GetIndexedEQProfileName => 113
  | disp_RetIndexedEQProfileName => 114
  | disp_SetRemoteEventNotification => 115
  | disp_RemoteEventNotification => 116
  | disp_GetRemoteEventStatus => 117
  | disp_RetRemoteEventStatus => 118
  | disp_InfoTrackPositionMs => 119
  | disp_InfoTrackIndex => 120
  | disp_InfoChapterIndex => 121
  | disp_InfoPlayStatus => 122
  | disp_InfoVolume => 123
  | disp_InfoPower => 124
  | disp_InfoEqualizer => 125
  | disp_InfoShuffle => 126
  | disp_InfoRepeat => 127
  | disp_InfoDateTime => 128
  | disp_InfoBacklight => 129
  | disp_InfoHoldSwitch => 130
  | disp_InfoSoundCheck => 131
  | disp_InfoAudiobookSpeed => 132
  | disp_InfoTrackPositionSec => 133
  | disp_InfoVolume2 => 134
  | disp_GetiPodStateInfo => 135
  | disp_RetiPodStateInfo => 136
  | disp_SetiPodStateInfo => 137
  | disp_GetPlayStatus => 138
  | disp_RetPlayStatus => 139
  | disp_SetCurrentPlayingTrack => 140
  | disp_GetIndexedPlayingTrackInfo => 141
  | disp_TrackInfoCaps => 142
  | disp_TrackInfoChapterTimeName => 143
  | disp_TrackInfoArtist => 144
  | disp_TrackInfoAlbum => 145
  | disp_TrackInfoGenre => 146
  | disp_TrackInfoTrack => 147
  | disp_TrackInfoComposer => 148
  | disp_TrackInfoLyrics => 149
  | disp_TrackInfoArtworkCount => 150
  | disp_RetIndexedPlayingTrackInfo => 151
  | disp_GetNumPlayingTracks => 152
  | disp_RetNumPlayingTracks => 153
  | disp_GetArtworkFormats => 154
  | disp_ArtworkFormat => 155
  | disp_RetArtworkFormats => 156
  | disp_GetTrackArtworkData => 157
  | disp_RetTrackArtworkData => 158
  | disp_GetPowerBatteryState => 159
  | disp_RetPowerBatteryState => 160
  | disp_GetSoundCheckState => 161
  | disp_RetSoundCheckState => 162
  | disp_SetSoundCheckState => 163
  | disp_GetTrackArtworkTimes => 164
  | disp_RetTrackArtworkTimes => 165
  | ext_ACK => 166
  | ext_GetCurrentPlayingTrackChapterInfo => 167
  | ext_ReturnCurrentPlayingTrackChapterInfo => 168
  | ext_SetCurrentPlayingTrackChapter => 169
  | ext_GetCurrentPlayingTrackChapterPlayStatus => 170
  | ext_ReturnCurrentPlayingTrackChapterPlayStatus => 171
  | ext_GetCurrentPlayingTrackChapterName => 172
  | ext_ReturnCurrentPlayingTrackChapterName => 173
  | ext_GetAudiobookSpeed => 174
  | ext_ReturnAudiobookSpeed => 175
  | ext_SetAudiobookSpeed => 176
  | ext_TrackCaps => 177
  | ext_TrackReleaseDate => 178
  | ext_TrackLongText => 179
  | ext_GetIndexedPlayingTrackInfo => 180
  | ext_ReturnIndexedPlayingTrackInfo => 181
  | ext_GetArtworkFormats => 182
  | ext_ArtworkFormat => 183
  | ext_RetArtworkFormats => 184
  | ext_GetTrackArtworkData => 185
  | ext_RetTrackArtworkData => 186
  | ext_ResetDBSelection => 187
  | ext_SelectDBRecord => 188
  | ext_GetNumberCategorizedDBRecords => 189
  | ext_ReturnNumberCategorizedDBRecords => 190
  | ext_RetrieveCategorizedDatabaseRecords => 191
  | ext_ReturnCategorizedDatabaseRecord => 192
  | ext_GetPlayStatus => 193
  | ext_ReturnPlayStatus => 194
  | ext_GetCurrentPlayingTrackIndex => 195
  | ext_ReturnCurrentPlayingTrackIndex => 196
  | ext_GetIndexedPlayingTrackTitle => 197
  | ext_ReturnIndexedPlayingTrackTitle => 198
  | ext_GetIndexedPlayingTrackArtistName => 199
  | ext_ReturnIndexedPlayingTrackArtistName => 200
  | ext_GetIndexedPlayingTrackAlbumName => 201
  | ext_ReturnIndexedPlayingTrackAlbumName => 202
  | ext_SetPlayStatusChangeNotification => 203
  | ext_SetPlayStatusChangeNotificationShort => 204
  | ext_PlayStatusChangeNotification => 205
  | ext_PlayCurrentSelection => 206
  | ext_PlayControl => 207
  | ext_GetTrackArtworkTimes => 208
  | ext_RetTrackArtworkTimes => 209
  | ext_GetShuffle => 210
  | ext_ReturnShuffle => 211
  | ext_SetShuffle => 212
  | ext_GetRepeat => 213
  | ext_ReturnRepeat => 214
  | ext_SetRepeat => 215
  | ext_SetDisplayImage => 216
  | ext_GetMonoDisplayImageLimits => 217
  | ext_ReturnMonoDisplayImageLimits => 218
  | ext_GetNumPlayingTracks => 219
  | ext_ReturnNumPlayingTracks => 220
  | ext_SetCurrentPlayingTrack => 221
  | ext_SelectSortDBRecord => 222
  | ext_GetColorDisplayImageLimits => 223
  | ext_ReturnColorDisplayImageLimits => 224
  | ext_ResetDBSelectionHierarchy => 225
  | ext_GetDBiTunesInfo => 226
  | ext_RetDBiTunesInfo => 227
  | ext_GetUIDTrackInfo => 228
  | ext_RetUIDTrackInfo => 229
  | ext_GetDBTrackInfo => 230
  | ext_RetDBTrackInfo => 231
  | ext_GetPBTrackInfo => 232
  | ext_RetPBTrackInfo => 233
  | audio_AccAck => 234
  | audio_iPodAck => 235
  | audio_GetAccSampleRateCaps => 236
  | audio_RetAccSampleRateCaps => 237
  | audio_TrackNewAudioAttributes => 238
  | audio_SetVideoDelay => 239
  | anon_struct => 240
  end.
Definition pty_eqb (a b : pty) : bool := Nat.eqb (pty_index a) (pty_index b).

(** lingo-general/general.go:19-95, [Lingos]: id tag and type of each field, in order. *)
Definition general_Lingos : list (string * pty) :=
  [("0x00"%string, general_RequestIdentify) (* 20 *);
   ("0x02"%string, general_ACK) (* 21 *);
   ("0x02"%string, general_ACKPending) (* 22 *);
   ("0x02"%string, general_ACKDataDropped) (* 23 *);
   ("0x03"%string, general_RequestRemoteUIMode) (* 24 *);
   ("0x04"%string, general_ReturnRemoteUIMode) (* 25 *);
   ("0x05"%string, general_EnterRemoteUIMode) (* 26 *);
   ("0x06"%string, general_ExitRemoteUIMode) (* 27 *);
   ("0x07"%string, general_RequestiPodName) (* 28 *);
   ("0x08"%string, general_ReturniPodName) (* 29 *);
   ("0x09"%string, general_RequestiPodSoftwareVersion) (* 30 *);
   ("0x0A"%string, general_ReturniPodSoftwareVersion) (* 31 *);
   ("0x0B"%string, general_RequestiPodSerialNum) (* 32 *);
   ("0x0C"%string, general_ReturniPodSerialNum) (* 33 *);
   ("0x0D"%string, general_RequestiPodModelNum) (* 34 *);
   ("0x0E"%string, general_ReturniPodModelNum) (* 35 *);
   ("0x0F"%string, general_RequestLingoProtocolVersion) (* 36 *);
   ("0x10"%string, general_ReturnLingoProtocolVersion) (* 37 *);
   ("0x11"%string, general_RequestTransportMaxPayloadSize) (* 38 *);
   ("0x12"%string, general_ReturnTransportMaxPayloadSize) (* 39 *);
   ("0x13"%string, general_IdentifyDeviceLingoes) (* 40 *);
   ("0x14"%string, general_GetDevAuthenticationInfo) (* 41 *);
   ("0x15"%string, general_RetDevAuthenticationInfo) (* 44 *);
   ("0x16"%string, general_AckDevAuthenticationInfo) (* 45 *);
   ("0x17"%string, general_GetDevAuthenticationSignatureV1) (* 46 *);
   ("0x17"%string, general_GetDevAuthenticationSignatureV2) (* 47 *);
   ("0x18"%string, general_RetDevAuthenticationSignature) (* 50 *);
   ("0x19"%string, general_AckDevAuthenticationStatus) (* 51 *);
   ("0x1A"%string, general_GetiPodAuthenticationInfo) (* 52 *);
   ("0x1B"%string, general_RetiPodAuthenticationInfo) (* 53 *);
   ("0x1C"%string, general_AckiPodAuthenticationInfo) (* 54 *);
   ("0x1D"%string, general_GetiPodAuthenticationSignature) (* 55 *);
   ("0x1E"%string, general_RetiPodAuthenticationSignature) (* 56 *);
   ("0x1F"%string, general_AckiPodAuthenticationStatus) (* 57 *);
   ("0x23"%string, general_NotifyiPodStateChange) (* 58 *);
   ("0x24"%string, general_GetiPodOptions) (* 59 *);
   ("0x25"%string, general_RetiPodOptions) (* 60 *);
   ("0x27"%string, general_GetAccessoryInfo) (* 61 *);
   ("0x28"%string, general_RetAccessoryInfo) (* 62 *);
   ("0x29"%string, general_GetiPodPreferences) (* 63 *);
   ("0x2A"%string, general_RetiPodPreferences) (* 64 *);
   ("0x2B"%string, general_SetiPodPreferences) (* 65 *);
   ("0x35"%string, general_GetUIMode) (* 66 *);
   ("0x36"%string, general_RetUIMode) (* 67 *);
   ("0x37"%string, general_SetUIMode) (* 68 *);
   ("0x38"%string, general_StartIDPS) (* 69 *);
   ("0x39"%string, general_SetFIDTokenValues) (* 70 *);
   ("0x3A"%string, general_RetFIDTokenValueACKs) (* 71 *);
   ("0x3B"%string, general_EndIDPS) (* 72 *);
   ("0x3C"%string, general_IDPSStatus) (* 73 *);
   ("0x3F"%string, general_OpenDataSessionForProtocol) (* 74 *);
   ("0x40"%string, general_CloseDataSession) (* 75 *);
   ("0x41"%string, general_DevACK) (* 76 *);
   ("0x42"%string, general_DevDataTransfer) (* 77 *);
   ("0x43"%string, general_IPodDataTransfer) (* 78 *);
   ("0x46"%string, general_SetAccStatusNotification) (* 79 *);
   ("0x47"%string, general_RetAccStatusNotification) (* 80 *);
   ("0x48"%string, general_AccessoryStatusNotification) (* 81 *);
   ("0x49"%string, general_SetEventNotification) (* 82 *);
   ("0x4A"%string, general_IPodNotification) (* 83 *);
   ("0x4B"%string, general_GetiPodOptionsForLingo) (* 84 *);
   ("0x4C"%string, general_RetiPodOptionsForLingo) (* 85 *);
   ("0x4D"%string, general_GetEventNotification) (* 86 *);
   ("0x4E"%string, general_RetEventNotification) (* 87 *);
   ("0x4F"%string, general_GetSupportedEventNotification) (* 88 *);
   ("0x50"%string, general_CancelCommand) (* 89 *);
   ("0x51"%string, general_RetSupportedEventNotification) (* 90 *);
   ("0x54"%string, general_SetAvailableCurrent) (* 91 *);
   ("0x64"%string, general_RequestApplicationLaunch) (* 92 *);
   ("0x65"%string, general_GetNowPlayingFocusApp) (* 93 *);
   ("0x66"%string, general_RetNowPlayingFocusApp) (* 94 *)].

(** lingo-simpleremote/simpleremote.go:16-38, [Lingos]: id tag and type of each field, in order. *)
Definition simple_Lingos : list (string * pty) :=
  [("0x00"%string, simple_ContextButtonStatus) (* 17 *);
   ("0x01"%string, simple_ACK) (* 18 *);
   ("0x03"%string, simple_VideoButtonStatus) (* 19 *);
   ("0x04"%string, simple_AudioButtonStatus) (* 20 *);
   ("0x0B"%string, simple_iPodOutButtonStatus) (* 21 *);
   ("0x0C"%string, simple_RotationInputStatus) (* 22 *);
   ("0x0D"%string, simple_RadioButtonStatus) (* 23 *);
   ("0x0E"%string, simple_CameraButtonStatus) (* 24 *);
   ("0x0F"%string, simple_RegisterDescriptor) (* 25 *);
   ("0x10"%string, simple_SendHIDReportToiPod) (* 26 *);
   ("0x11"%string, simple_SendHIDReportToAcc) (* 27 *);
   ("0x12"%string, simple_UnregisterDescriptor) (* 28 *);
   ("0x13"%string, simple_AccessibilityEvent) (* 29 *);
   ("0x14"%string, simple_GetAccessibilityParameter) (* 30 *);
   ("0x15"%string, simple_RetAccessibilityParameter) (* 31 *);
   ("0x16"%string, simple_SetAccessibilityParameter) (* 32 *);
   ("0x17"%string, simple_GetCurrentItemProperty) (* 33 *);
   ("0x18"%string, simple_RetCurrentItemProperty) (* 34 *);
   ("0x19"%string, simple_SetContext) (* 35 *);
   ("0x1A"%string, simple_AccParameterChanged) (* 36 *);
   ("0x81"%string, simple_DevACK) (* 37 *)].

(** lingo-dispremote/dispremote.go:15-49, [Lingos]: id tag and type of each field, in order. *)
Definition disp_Lingos : list (string * pty) :=
  [("0x00"%string, disp_ACK) (* 16 *);
   ("0x01"%string, disp_GetCurrentEQProfileIndex) (* 17 *);
   ("0x02"%string, disp_RetCurrentEQProfileIndex) (* 18 *);
   ("0x03"%string, disp_SetCurrentEQProfileIndex) (* 19 *);
   ("0x04"%string, disp_GetNumEQProfiles) (* 20 *);
   ("0x05"%string, disp_RetNumEQProfiles) (* 21 *);
   ("0x06"%string, disp_GetIndexedEQProfileName) (* 22 *);
   ("0x07"%string, disp_RetIndexedEQProfileName) (* 23 *);
   ("0x08"%string, disp_SetRemoteEventNotification) (* 24 *);
   ("0x09"%string, disp_RemoteEventNotification) (* 25 *);
   ("0x0A"%string, disp_GetRemoteEventStatus) (* 26 *);
   ("0x0B"%string, disp_RetRemoteEventStatus) (* 27 *);
   ("0x0C"%string, disp_GetiPodStateInfo) (* 28 *);
   ("0x0D"%string, disp_RetiPodStateInfo) (* 29 *);
   ("0x0E"%string, disp_SetiPodStateInfo) (* 30 *);
   ("0x0F"%string, disp_GetPlayStatus) (* 31 *);
   ("0x10"%string, disp_RetPlayStatus) (* 32 *);
   ("0x11"%string, disp_SetCurrentPlayingTrack) (* 33 *);
   ("0x12"%string, disp_GetIndexedPlayingTrackInfo) (* 34 *);
   ("0x13"%string, disp_RetIndexedPlayingTrackInfo) (* 35 *);
   ("0x14"%string, disp_GetNumPlayingTracks) (* 36 *);
   ("0x15"%string, disp_RetNumPlayingTracks) (* 37 *);
   ("0x16"%string, disp_GetArtworkFormats) (* 38 *);
   ("0x17"%string, disp_RetArtworkFormats) (* 39 *);
   ("0x18"%string, disp_GetTrackArtworkData) (* 40 *);
   ("0x19"%string, disp_RetTrackArtworkData) (* 41 *);
   ("0x1A"%string, disp_GetPowerBatteryState) (* 42 *);
   ("0x1B"%string, disp_RetPowerBatteryState) (* 43 *);
   ("0x1C"%string, disp_GetSoundCheckState) (* 44 *);
   ("0x1D"%string, disp_RetSoundCheckState) (* 45 *);
   ("0x1E"%string, disp_SetSoundCheckState) (* 46 *);
   ("0x1F"%string, disp_GetTrackArtworkTimes) (* 47 *);
   ("0x20"%string, disp_RetTrackArtworkTimes) (* 48 *)].

(** lingo-extremote/extremote.go:15-80, [Lingos]: id tag and type of each field, in order. *)
Definition ext_Lingos : list (string * pty) :=
  [("0x0001"%string, ext_ACK) (* 16 *);
   ("0x0002"%string, ext_GetCurrentPlayingTrackChapterInfo) (* 17 *);
   ("0x0003"%string, ext_ReturnCurrentPlayingTrackChapterInfo) (* 18 *);
   ("0x0004"%string, ext_SetCurrentPlayingTrackChapter) (* 19 *);
   ("0x0005"%string, ext_GetCurrentPlayingTrackChapterPlayStatus) (* 20 *);
   ("0x0006"%string, ext_ReturnCurrentPlayingTrackChapterPlayStatus) (* 21 *);
   ("0x0007"%string, ext_GetCurrentPlayingTrackChapterName) (* 22 *);
   ("0x0008"%string, ext_ReturnCurrentPlayingTrackChapterName) (* 23 *);
   ("0x0009"%string, ext_GetAudiobookSpeed) (* 24 *);
   ("0x000A"%string, ext_ReturnAudiobookSpeed) (* 25 *);
   ("0x000B"%string, ext_SetAudiobookSpeed) (* 26 *);
   ("0x000C"%string, ext_GetIndexedPlayingTrackInfo) (* 27 *);
   ("0x000D"%string, ext_ReturnIndexedPlayingTrackInfo) (* 28 *);
   ("0x000E"%string, ext_GetArtworkFormats) (* 29 *);
   ("0x000F"%string, ext_RetArtworkFormats) (* 30 *);
   ("0x0010"%string, ext_GetTrackArtworkData) (* 31 *);
   ("0x0011"%string, ext_RetTrackArtworkData) (* 32 *);
   ("0x0016"%string, ext_ResetDBSelection) (* 33 *);
   ("0x0017"%string, ext_SelectDBRecord) (* 34 *);
   ("0x0018"%string, ext_GetNumberCategorizedDBRecords) (* 35 *);
   ("0x0019"%string, ext_ReturnNumberCategorizedDBRecords) (* 36 *);
   ("0x001A"%string, ext_RetrieveCategorizedDatabaseRecords) (* 37 *);
   ("0x001B"%string, ext_ReturnCategorizedDatabaseRecord) (* 38 *);
   ("0x001C"%string, ext_GetPlayStatus) (* 39 *);
   ("0x001D"%string, ext_ReturnPlayStatus) (* 40 *);
   ("0x001E"%string, ext_GetCurrentPlayingTrackIndex) (* 41 *);
   ("0x001F"%string, ext_ReturnCurrentPlayingTrackIndex) (* 42 *);
   ("0x0020"%string, ext_GetIndexedPlayingTrackTitle) (* 43 *);
   ("0x0021"%string, ext_ReturnIndexedPlayingTrackTitle) (* 44 *);
   ("0x0022"%string, ext_GetIndexedPlayingTrackArtistName) (* 45 *);
   ("0x0023"%string, ext_ReturnIndexedPlayingTrackArtistName) (* 46 *);
   ("0x0024"%string, ext_GetIndexedPlayingTrackAlbumName) (* 47 *);
   ("0x0025"%string, ext_ReturnIndexedPlayingTrackAlbumName) (* 48 *);
   ("0x0026"%string, ext_SetPlayStatusChangeNotification) (* 49 *);
   ("0x0026"%string, ext_SetPlayStatusChangeNotificationShort) (* 50 *);
   ("0x0027"%string, ext_PlayStatusChangeNotification) (* 51 *);
   ("0x0028"%string, ext_PlayCurrentSelection) (* 52 *);
   ("0x0029"%string, ext_PlayControl) (* 53 *);
   ("0x002A"%string, ext_GetTrackArtworkTimes) (* 54 *);
   ("0x002B"%string, ext_RetTrackArtworkTimes) (* 55 *);
   ("0x002C"%string, ext_GetShuffle) (* 56 *);
   ("0x002D"%string, ext_ReturnShuffle) (* 57 *);
   ("0x002E"%string, ext_SetShuffle) (* 58 *);
   ("0x002F"%string, ext_GetRepeat) (* 59 *);
   ("0x0030"%string, ext_ReturnRepeat) (* 60 *);
   ("0x0031"%string, ext_SetRepeat) (* 61 *);
   ("0x0032"%string, ext_SetDisplayImage) (* 62 *);
   ("0x0033"%string, ext_GetMonoDisplayImageLimits) (* 63 *);
   ("0x0034"%string, ext_ReturnMonoDisplayImageLimits) (* 64 *);
   ("0x0035"%string, ext_GetNumPlayingTracks) (* 65 *);
   ("0x0036"%string, ext_ReturnNumPlayingTracks) (* 66 *);
   ("0x0037"%string, ext_SetCurrentPlayingTrack) (* 67 *);
   ("0x0038"%string, ext_SelectSortDBRecord) (* 68 *);
   ("0x0039"%string, ext_GetColorDisplayImageLimits) (* 69 *);
   ("0x003A"%string, ext_ReturnColorDisplayImageLimits) (* 70 *);
   ("0x003B"%string, ext_ResetDBSelectionHierarchy) (* 71 *);
   ("0x003C"%string, ext_GetDBiTunesInfo) (* 72 *);
   ("0x003D"%string, ext_RetDBiTunesInfo) (* 73 *);
   ("0x003E"%string, ext_GetUIDTrackInfo) (* 74 *);
   ("0x003F"%string, ext_RetUIDTrackInfo) (* 75 *);
   ("0x0040"%string, ext_GetDBTrackInfo) (* 76 *);
   ("0x0041"%string, ext_RetDBTrackInfo) (* 77 *);
   ("0x0042"%string, ext_GetPBTrackInfo) (* 78 *);
   ("0x0043"%string, ext_RetPBTrackInfo) (* 79 *)].

(** lingo-audio/audio.go:14-21, [Lingos]: id tag and type of each field, in order. *)
Definition audio_Lingos : list (string * pty) :=
  [("0x00"%string, audio_AccAck) (* 15 *);
   ("0x01"%string, audio_iPodAck) (* 16 *);
   ("0x02"%string, audio_GetAccSampleRateCaps) (* 17 *);
   ("0x03"%string, audio_RetAccSampleRateCaps) (* 18 *);
   ("0x04"%string, audio_TrackNewAudioAttributes) (* 19 *);
   ("0x05"%string, audio_SetVideoDelay) (* 20 *)].
