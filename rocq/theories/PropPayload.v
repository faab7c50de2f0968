(** Properties C56-C63: payload encodings. *)
From Verif Require Import Base GoTypes Types Payload SpecPayload PayloadThms Util.

(** ** C56 *)

Theorem C56_roundtrip t rt m :
  In t [simple_ContextButtonStatus; simple_VideoButtonStatus; simple_AudioButtonStatus] -> u32 m ->
  exists b, payload_marshaler rt (Pst t [VU m; VBlank]) = Some (Ret (Ok b)) /\ button_wire m b
    /\ payload_unmarshal rt t b = Ret (true, Ok (Pst t [VU m; VBlank])).
Proof. exact (buttons_codec t rt m). Qed.
Print Assumptions C56_roundtrip.

Theorem C56_parse t rt data :
  In t [simple_ContextButtonStatus; simple_VideoButtonStatus; simple_AudioButtonStatus] ->
  match data with
  | [] => exists e, payload_unmarshal rt t data = Ret (true, Err e)
  | _ => payload_unmarshal rt t data = Ret (true, Ok (Pst t [VU (number (rev (firstn 4 data))); VBlank]))
  end.
Proof. exact (buttons_parse t rt data). Qed.
Print Assumptions C56_parse.

Example C56_case :
  payload_marshaler true (Pst simple_ContextButtonStatus [VU 65537; VBlank]) = Some (Ret (Ok [x01; x00; x01]))
  /\ button_wire 65537 [x01; x00; x01] /\ button_wire 0 [x00].
Proof.
  split; [reflexivity|]. split.
  - exists 1. repeat split; try discriminate. right. discriminate.
  - exists 3. repeat split; try discriminate. left. reflexivity.
Qed.

(** ** C57 *)

Theorem C57_tokens_roundtrip rt l :
  List.length l <= 255 -> Forall (codable_token rt) l ->
  exists b, payload_marshaler rt (PTokens l) = Some (Ret (Ok b)) /\ payload_wire (PTokens l) b
    /\ payload_unmarshal rt general_SetFIDTokenValues b = Ret (true, Ok (PTokens l)).
Proof.
  intros H1 H2. destruct (sendable_payload rt _ (sd_tokens rt l H1 H2)) as (t & b & Ht & Em & Hw & Eu).
  injection Ht as <-. exact (ex_intro _ b (conj Em (conj Hw Eu))).
Qed.
Print Assumptions C57_tokens_roundtrip.

Theorem C57_acks_roundtrip rt l :
  List.length l <= 255 -> Forall codable_ack l ->
  exists b, payload_marshaler rt (PTokenAcks l) = Some (Ret (Ok b)) /\ payload_wire (PTokenAcks l) b
    /\ payload_unmarshal rt general_RetFIDTokenValueACKs b = Ret (true, Ok (PTokenAcks l)).
Proof.
  intros H1 H2. destruct (sendable_payload rt _ (sd_acks rt l H1 H2)) as (t & b & Ht & Em & Hw & Eu).
  injection Ht as <-. exact (ex_intro _ b (conj Em (conj Hw Eu))).
Qed.
Print Assumptions C57_acks_roundtrip.

(** Parsed tokens are of the kind their id announces, and there are as many as announced. *)
Theorem C57_parsed_consistent rt data l :
  payload_unmarshal rt general_SetFIDTokenValues data = Ret (true, Ok (PTokens l)) ->
  Forall consistent_token l /\ exists n r, data = n :: r /\ len l = b2n n.
Proof. exact (tokens_unmarshal_consistent rt data l). Qed.
Print Assumptions C57_parsed_consistent.

Example C57_case :
  Forall (codable_token false)
    [mkTV 0 0 (TokIdentify [x00; x04] 1 2); mkTV 1 9 (TokStruct general_FIDMicrophoneCapsToken [VU 5]);
     mkTV 7 7 (TokRaw [x01])]
  /\ Forall codable_ack [mkTA 0 2 (Some [x00; x01])]
  /\ payload_unmarshal true general_SetFIDTokenValues [x01; x08; x00; x02; x01; x41; x00; x42]
     = Ret (true, Ok (PTokens [mkTV 0 2 (TokAccInfo 1 (Some [x41; x00]))])).
Proof.
  split; [|split; [|reflexivity]].
  - constructor; [apply ct_identify; [cbn; lia|reflexivity|reflexivity]|].
    constructor; [apply ct_struct; [constructor|reflexivity|reflexivity]|].
    constructor; [|constructor]. apply ct_raw; try reflexivity; [|cbn; lia].
    unfold known_token. cbn. intuition discriminate.
  - constructor; [|constructor]. apply ca; try reflexivity. cbn. lia.
Qed.

(** ** C58 *)

(** Finding: any number of tokens marshals without error, but only the count modulo 256 comes
    back. *)
Theorem C58_count_wraps rt l :
  Forall (codable_token rt) l ->
  exists b, payload_marshaler rt (PTokens l) = Some (Ret (Ok b))
    /\ payload_unmarshal rt general_SetFIDTokenValues b
       = Ret (true, Ok (PTokens (firstn (N.to_nat (len l mod 256)) l))).
Proof. exact (tokens_wrap rt l). Qed.
Print Assumptions C58_count_wraps.

Theorem C58_roundtrip_refuted :
  exists l, (exists b, payload_marshaler true (PTokens l) = Some (Ret (Ok b))
               /\ payload_unmarshal true general_SetFIDTokenValues b = Ret (true, Ok (PTokens [])))
    /\ l <> [].
Proof.
  exists (repeat (mkTV 0 1 (TokStruct general_FIDAccCapsToken [VU 3])) 256). split; [|discriminate].
  refine (tokens_wrap true (repeat _ 256) _).
  apply Forall_forall. intros v Hv. apply repeat_spec in Hv. subst v.
  apply ct_struct; [constructor|reflexivity|reflexivity].
Qed.
Print Assumptions C58_roundtrip_refuted.

(** Likewise a token longer than 255 bytes: here 243 of 250 lingoes are lost to a wrapped
    length and what follows is garbage for the next token. *)
Theorem C58_long_token_refuted :
  exists lingoes b, payload_marshaler true (PTokens [mkTV 0 0 (TokIdentify lingoes 1 1)]) = Some (Ret (Ok b))
    /\ payload_unmarshal true general_SetFIDTokenValues b
       <> Ret (true, Ok (PTokens [mkTV 0 0 (TokIdentify lingoes 1 1)])).
Proof.
  exists (repeat x02 250). eexists. split; [reflexivity|]. vm_compute. discriminate.
Qed.
Print Assumptions C58_long_token_refuted.

Example C58_case :
  Forall (codable_token true) (repeat (mkTV 0 1 (TokStruct general_FIDAccCapsToken [VU 3])) 258)
  /\ N.to_nat (len (repeat (mkTV 0 1 (TokStruct general_FIDAccCapsToken [VU 3])) 258) mod 256) = 2.
Proof.
  split; [|reflexivity]. apply Forall_forall. intros v Hv. apply repeat_spec in Hv. subst v.
  apply ct_struct; [constructor|reflexivity|reflexivity].
Qed.

(** ** C59 *)

Theorem C59_cert_section rt data :
  match data with
  | major :: minor :: r =>
      if (b2n major <? 2)%N
      then payload_unmarshal rt general_RetDevAuthenticationInfo data
           = Ret (true, Ok (Pst general_RetDevAuthenticationInfo
                              [VU (b2n major); VU (b2n minor); VU 0; VU 0; VBytes []]))
      else match r with
           | cur :: max :: cert =>
               payload_unmarshal rt general_RetDevAuthenticationInfo data
               = Ret (true, Ok (Pst general_RetDevAuthenticationInfo
                                  [VU (b2n major); VU (b2n minor); VU (b2n cur); VU (b2n max); VBytes cert]))
           | _ => exists e, payload_unmarshal rt general_RetDevAuthenticationInfo data = Ret (true, Err e)
           end
  | _ => exists e, payload_unmarshal rt general_RetDevAuthenticationInfo data = Ret (true, Err e)
  end.
Proof. exact (cert_section rt data). Qed.
Print Assumptions C59_cert_section.

Example C59_case :
  payload_unmarshal true general_RetDevAuthenticationInfo [x02; x00; x01; x03; xaa; xbb]
  = Ret (true, Ok (Pst general_RetDevAuthenticationInfo [VU 2; VU 0; VU 1; VU 3; VBytes [xaa; xbb]])).
Proof. reflexivity. Qed.

(** ** C60 *)

Theorem C60_roundtrip rt ty t vs :
  In (ty, t) state_infos -> typed t vs ->
  exists b, payload_marshaler rt (PStateInfo ty (IPtr t vs)) = Some (Ret (Ok b))
    /\ payload_wire (PStateInfo ty (IPtr t vs)) b
    /\ payload_unmarshal rt disp_RetiPodStateInfo b = Ret (true, Ok (PStateInfo ty (IPtr t vs))).
Proof.
  intros H1 H2. destruct (sendable_payload rt _ (sd_state rt ty t vs H1 H2)) as (u & b & Hu & Em & Hw & Eu).
  injection Hu as <-. exact (ex_intro _ b (conj Em (conj Hw Eu))).
Qed.
Print Assumptions C60_roundtrip.

Theorem C60_unknown_type rt ty data :
  ~ In (b2n ty) (map fst state_infos) ->
  exists e, payload_unmarshal rt disp_RetiPodStateInfo (ty :: data) = Ret (true, Err e).
Proof. exact (state_info_unknown rt ty data). Qed.
Print Assumptions C60_unknown_type.

Example C60_case :
  In (4%N, disp_InfoVolume) state_infos /\ typed disp_InfoVolume [VU 0; VU 200]
  /\ payload_marshaler true (PStateInfo 4 (IPtr disp_InfoVolume [VU 0; VU 200])) = Some (Ret (Ok [x04; x00; xc8]))
  /\ ~ In (b2n x0a) (map fst state_infos).
Proof. repeat split; vm_compute; intuition discriminate. Qed.

(** ** C61 *)

(** Finding: of an info type holding text only the type byte is ever sent. *)
Theorem C61_text_lost rt ty t vs :
  In (ty, t) text_track_infos ->
  payload_marshaler rt (PDispTrackInfo ty (IPtr t vs)) = Some (Ret (Ok [n2b ty])).
Proof. exact (text_info_lost rt ty t vs). Qed.
Print Assumptions C61_text_lost.

Theorem C61_text_sent_refuted :
  exists ty t vs vs', In (ty, t) text_track_infos /\ typed t vs /\ typed t vs' /\ vs <> vs'
    /\ payload_marshaler true (PDispTrackInfo ty (IPtr t vs))
       = payload_marshaler true (PDispTrackInfo ty (IPtr t vs')).
Proof.
  exists 2%N, disp_TrackInfoArtist, [VBytes [x41; x00]], [VBytes [x42; x00]].
  repeat split; try discriminate. vm_compute. auto.
Qed.
Print Assumptions C61_text_sent_refuted.

(** The two others are sent in full. *)
Theorem C61_sized_sent rt ty t vs :
  In (ty, t) sized_track_infos -> typed t vs ->
  exists b, payload_marshaler rt (PDispTrackInfo ty (IPtr t vs)) = Some (Ret (Ok b))
    /\ payload_wire (PDispTrackInfo ty (IPtr t vs)) b
    /\ payload_unmarshal rt disp_RetIndexedPlayingTrackInfo b = Ret (true, Ok (PDispTrackInfo ty (IPtr t vs))).
Proof.
  intros H1 H2. destruct (sendable_payload rt _ (sd_track rt ty t vs H1 H2)) as (u & b & Hu & Em & Hw & Eu).
  injection Hu as <-. exact (ex_intro _ b (conj Em (conj Hw Eu))).
Qed.
Print Assumptions C61_sized_sent.

Example C61_case :
  In (5%N, disp_TrackInfoTrack) text_track_infos
  /\ In (0%N, disp_TrackInfoCaps) sized_track_infos
  /\ exists vs b, typed disp_TrackInfoCaps vs
       /\ payload_marshaler true (PDispTrackInfo 0 (IPtr disp_TrackInfoCaps vs)) = Some (Ret (Ok b))
       /\ List.length b > 1.
Proof.
  split; [cbn; tauto|]. split; [cbn; tauto|].
  exists (map zero_val (layout disp_TrackInfoCaps)). eexists. repeat split. cbn. lia.
Qed.

(** ** C62 *)

Theorem C62_artwork rt l :
  Forall (typed ext_ArtworkFormat) l ->
  exists b, payload_marshaler rt (PExtArtwork l) = Some (Ret (Ok b)) /\ payload_wire (PExtArtwork l) b
    /\ payload_unmarshal rt ext_RetArtworkFormats b = Ret (true, Ok (PExtArtwork l)).
Proof.
  intros H1. destruct (sendable_payload rt _ (sd_artwork rt l H1)) as (u & b & Hu & Em & Hw & Eu).
  injection Hu as <-. exact (ex_intro _ b (conj Em (conj Hw Eu))).
Qed.
Print Assumptions C62_artwork.

Theorem C62_artwork_partial_entry rt l rest :
  Forall (typed ext_ArtworkFormat) l -> 0 < List.length rest < 7 ->
  exists b, payload_marshaler rt (PExtArtwork l) = Some (Ret (Ok b))
    /\ payload_unmarshal rt ext_RetArtworkFormats (b ++ rest) = Ret (true, Err UnexpectedEOF).
Proof. exact (artwork_tail rt l rest). Qed.
Print Assumptions C62_artwork_partial_entry.

Theorem C62_sample_rates rt l rest :
  Forall u32 l -> List.length rest < 4 ->
  exists b, payload_marshaler rt (Pst audio_RetAccSampleRateCaps [VU32s l]) = Some (Ret (Ok b))
    /\ sequence be32 l b
    /\ payload_unmarshal rt audio_RetAccSampleRateCaps (b ++ rest)
       = Ret (true, Ok (Pst audio_RetAccSampleRateCaps [VU32s l])).
Proof. exact (rates_tail rt l rest). Qed.
Print Assumptions C62_sample_rates.

Theorem C62_strings rt t l :
  In t [general_ReturniPodName; general_ReturniPodSerialNum; ext_ReturnIndexedPlayingTrackTitle;
        ext_ReturnIndexedPlayingTrackArtistName; ext_ReturnIndexedPlayingTrackAlbumName] ->
  payload_marshaler rt (Pst t [VBytes l]) = Some (Ret (Ok l))
  /\ payload_unmarshal rt t l = Ret (true, Ok (Pst t [VBytes l])).
Proof.
  intros H. cbn [In] in H. repeat (destruct H as [<-|H]; [exact (conj eq_refl eq_refl)|]). destruct H.
Qed.
Print Assumptions C62_strings.

Theorem C62_model_number rt id l :
  u32 id ->
  exists b, payload_marshaler rt (Pst general_ReturniPodModelNum [VU id; VBytes l]) = Some (Ret (Ok b))
    /\ payload_wire (Pst general_ReturniPodModelNum [VU id; VBytes l]) b
    /\ payload_unmarshal rt general_ReturniPodModelNum b
       = Ret (true, Ok (Pst general_ReturniPodModelNum [VU id; VBytes l])).
Proof.
  intros H1. destruct (sendable_payload rt _ (sd_model rt id l H1)) as (u & b & Hu & Em & Hw & Eu).
  injection Hu as <-. exact (ex_intro _ b (conj Em (conj Hw Eu))).
Qed.
Print Assumptions C62_model_number.

Example C62_case :
  Forall (typed ext_ArtworkFormat) [[VU 1; VU 2; VU 3; VU 4]; [VU 5; VU 0; VU 65535; VU 9]]
  /\ Forall u32 [44100; 48000]%N
  /\ payload_marshaler true (Pst audio_RetAccSampleRateCaps [VU32s [44100; 48000]%N])
     = Some (Ret (Ok [x00; x00; xac; x44; x00; x00; xbb; x80])).
Proof. repeat split; repeat constructor. Qed.

(** ** C63 *)

Theorem C63_bool b : ByteToBool (BoolToByte b) = b.
Proof. exact (bool_byte b). Qed.
Print Assumptions C63_bool.

Theorem C63_only_one_is_true n : ByteToBool n = true <-> n = 1%N.
Proof. exact (byte_bool n). Qed.
Print Assumptions C63_only_one_is_true.

Theorem C63_string s :
  List.length (StringToBytes s) = S (List.length s)
  /\ firstn (List.length s) (StringToBytes s) = s /\ last (StringToBytes s) x01 = x00.
Proof.
  unfold StringToBytes. rewrite app_length, last_last, (firstn_app (List.length s)), Nat.sub_diag, firstn_all.
  cbn. rewrite app_nil_r. repeat split. lia.
Qed.
Print Assumptions C63_string.

Example C63_case : StringToBytes (lit "ab") = [x61; x62; x00] /\ ByteToBool 2 = false.
Proof. split; reflexivity. Qed.
