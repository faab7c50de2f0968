(** Specification vocabulary for payload encodings, independent of the codecs. *)
From Verif Require Import Base GoTypes Types Payload.

(** [vs] are field values of a struct of type [t], each within the range of its Go type. *)
Definition typed (t : pty) (vs : list fval) : Prop := have_types (layout t) vs = true.

(** A struct type without slices or interfaces, of [n] bytes. *)
Definition fixed_size (t : pty) (n : nat) : Prop := struct_size (layout t) = Some n.

Definition u8 (n : N) : Prop := (n < 256)%N.
Definition u16 (n : N) : Prop := (n < 65536)%N.
Definition u32 (n : N) : Prop := (n < 2 ^ 32)%N.

(** ** FID tokens: (type, subtype) of each kind of token of fixed size *)
Inductive token_struct : N -> N -> pty -> Prop :=
| ts_caps : token_struct 0 1 general_FIDAccCapsToken
| ts_pref : token_struct 0 3 general_FIDiPodPreferenceToken
| ts_seed : token_struct 0 5 general_FIDBundleSeedIDPrefToken
| ts_screen : token_struct 0 7 general_FIDScreenInfoToken
| ts_meta : token_struct 0 8 general_FIDEAProtocolMetadataToken
| ts_mic sub : token_struct 1 sub general_FIDMicrophoneCapsToken.

(** Token ids the protocol assigns a meaning to. *)
Definition known_token (ty sub : N) : Prop :=
  ty = 1%N \/ (ty = 0%N /\ In sub [0; 1; 2; 3; 4; 5; 7; 8]%N).

(** Tokens with a faithful wire form of at most 255 bytes.  [rt] is true on Go versions whose
    binary.Size(nil) panics: there tokens of unknown id cannot be parsed at all. *)
Inductive codable_token (rt : bool) : token_value -> Prop :=
| ct_identify l o d :
    List.length l <= 244 -> u32 o -> u32 d -> codable_token rt (mkTV 0 0 (TokIdentify l o d))
| ct_struct ty sub t vs :
    token_struct ty sub t -> u8 sub -> typed t vs -> codable_token rt (mkTV ty sub (TokStruct t vs))
| ct_raw ty sub l :
    rt = false -> u8 ty -> u8 sub -> ~ known_token ty sub -> List.length l <= 253 ->
    codable_token rt (mkTV ty sub (TokRaw l)).

Inductive codable_ack : token_ack -> Prop :=
| ca ty sub b : u8 ty -> u8 sub -> List.length b <= 253 -> codable_ack (mkTA ty sub (Some b)).

(** A token whose content is of the kind its id announces. *)
Inductive consistent_token : token_value -> Prop :=
| cons_identify l o d : consistent_token (mkTV 0 0 (TokIdentify l o d))
| cons_accinfo ty v : consistent_token (mkTV 0 2 (TokAccInfo ty (Some v)))
| cons_ea i s : consistent_token (mkTV 0 4 (TokEAProtocol i s))
| cons_struct ty sub t vs :
    token_struct ty sub t -> typed t vs -> consistent_token (mkTV ty sub (TokStruct t vs))
| cons_raw ty sub l : ~ known_token ty sub -> consistent_token (mkTV ty sub (TokRaw l)).

(** ** Info types *)

(** The structure carried for each info type of the display remote lingo (16 known types). *)
Definition state_infos : list (N * pty) :=
  [(0, disp_InfoTrackPositionMs); (1, disp_InfoTrackIndex); (2, disp_InfoChapterIndex);
   (3, disp_InfoPlayStatus); (4, disp_InfoVolume); (5, disp_InfoPower); (6, disp_InfoEqualizer);
   (7, disp_InfoShuffle); (8, disp_InfoRepeat); (9, disp_InfoDateTime); (11, disp_InfoBacklight);
   (12, disp_InfoHoldSwitch); (13, disp_InfoSoundCheck); (14, disp_InfoAudiobookSpeed);
   (15, disp_InfoTrackPositionSec); (16, disp_InfoVolume2)]%N.

(** Track info types whose structure has a fixed size, and those that hold text. *)
Definition sized_track_infos : list (N * pty) :=
  [(0, disp_TrackInfoCaps); (8, disp_TrackInfoArtworkCount)]%N.
Definition text_track_infos : list (N * pty) :=
  [(1, disp_TrackInfoChapterTimeName); (2, disp_TrackInfoArtist); (3, disp_TrackInfoAlbum);
   (4, disp_TrackInfoGenre); (5, disp_TrackInfoTrack); (6, disp_TrackInfoComposer);
   (7, disp_TrackInfoLyrics)]%N.

(** ** Values of the variable-size types that have both MarshalBinary and UnmarshalBinary,
       within the limits of their wire form *)
Inductive sendable (rt : bool) : payload -> Prop :=
| sd_string t l :
    In t [general_ReturniPodName; general_ReturniPodSerialNum; ext_ReturnIndexedPlayingTrackTitle;
          ext_ReturnIndexedPlayingTrackArtistName; ext_ReturnIndexedPlayingTrackAlbumName] ->
    sendable rt (Pst t [VBytes l])
| sd_model id l : u32 id -> sendable rt (Pst general_ReturniPodModelNum [VU id; VBytes l])
| sd_buttons t m :
    In t [simple_ContextButtonStatus; simple_VideoButtonStatus; simple_AudioButtonStatus] ->
    u32 m -> sendable rt (Pst t [VU m; VBlank])
| sd_rates l : Forall u32 l -> sendable rt (Pst audio_RetAccSampleRateCaps [VU32s l])
| sd_tokens l : List.length l <= 255 -> Forall (codable_token rt) l -> sendable rt (PTokens l)
| sd_acks l : List.length l <= 255 -> Forall codable_ack l -> sendable rt (PTokenAcks l)
| sd_ext_info ty t vs :
    u8 ty -> t = (if (ty =? 0)%N then ext_TrackCaps
                  else if ((ty =? 3) || (ty =? 4))%N then ext_TrackLongText else anon_struct) ->
    typed t vs -> sendable rt (PExtTrackInfo ty (IPtr t vs))
| sd_artwork l : Forall (typed ext_ArtworkFormat) l -> sendable rt (PExtArtwork l)
| sd_state ty t vs : In (ty, t) state_infos -> typed t vs -> sendable rt (PStateInfo ty (IPtr t vs))
| sd_track ty t vs :
    In (ty, t) sized_track_infos -> typed t vs -> sendable rt (PDispTrackInfo ty (IPtr t vs)).

(** ** Wire forms *)

(** Number a byte string denotes, most significant byte first. *)
Fixpoint number (b : bytes) : N :=
  match b with
  | [] => 0
  | x :: r => b2n x * 256 ^ len r + number r
  end%N.

(** Bytes of one field: integers most significant byte first, signed ones in two's complement,
    booleans as 0 or 1, arrays as they are. *)
Inductive field_wire : fty -> fval -> bytes -> Prop :=
| fw_unsigned k n b : List.length b = k -> number b = n -> field_wire (FU k) (VU n) b
| fw_positive k z b :
    List.length b = k -> (0 <= z < 2 ^ (8 * Z.of_nat k - 1))%Z -> Z.of_N (number b) = z ->
    field_wire (FI k) (VI z) b
| fw_negative k z b :
    List.length b = k -> (- 2 ^ (8 * Z.of_nat k - 1) <= z < 0)%Z ->
    Z.of_N (number b) = (z + 2 ^ (8 * Z.of_nat k))%Z ->
    field_wire (FI k) (VI z) b
| fw_true : field_wire FBool (VBool true) [x01]
| fw_false : field_wire FBool (VBool false) [x00]
| fw_array n l : List.length l = n -> field_wire (FArr n) (VArr l) l.

(** Fields of fixed size: integers, booleans and arrays. *)
Inductive scalar : fty -> Prop :=
| scalar_unsigned k : scalar (FU k)
| scalar_signed k : 0 < k -> scalar (FI k)
| scalar_bool : scalar FBool
| scalar_array n : scalar (FArr n).

(** Bytes of a struct: its fields in order, nothing between them. *)
Inductive struct_wire : list fty -> list fval -> bytes -> Prop :=
| sw_nil : struct_wire [] [] []
| sw_cons f fs v vs a b :
    field_wire f v a -> struct_wire fs vs b -> struct_wire (f :: fs) (v :: vs) (a ++ b).

Definition be32 (n : N) (b : bytes) : Prop := List.length b = 4 /\ number b = n.

Inductive token_wire : token_value -> bytes -> Prop :=
| tw_identify l o d bo bd :
    be32 o bo -> be32 d bd ->
    token_wire (mkTV 0 0 (TokIdentify l o d)) (x00 :: x00 :: n2b (len l) :: l ++ bo ++ bd)
| tw_struct ty sub t vs b :
    struct_wire (layout t) vs b ->
    token_wire (mkTV ty sub (TokStruct t vs)) (n2b ty :: n2b sub :: b)
| tw_raw ty sub l : token_wire (mkTV ty sub (TokRaw l)) (n2b ty :: n2b sub :: l).

Definition ack_wire (a : token_ack) (b : bytes) : Prop :=
  exists l, ta_ack a = Some l /\ b = n2b (ta_type a) :: n2b (ta_sub a) :: l.

(** Records one after the other, each preceded by its length in one byte. *)
Inductive records {A} (wire : A -> bytes -> Prop) : list A -> bytes -> Prop :=
| rec_nil : records wire [] []
| rec_cons x l a b :
    wire x a -> (len a < 256)%N -> records wire l b ->
    records wire (x :: l) (n2b (len a) :: a ++ b).

(** Items one after the other. *)
Inductive sequence {A} (wire : A -> bytes -> Prop) : list A -> bytes -> Prop :=
| seq_nil : sequence wire [] []
| seq_cons x l a b : wire x a -> sequence wire l b -> sequence wire (x :: l) (a ++ b).

(** [b], followed by enough zero bytes, is the 32-bit mask [m] least significant byte first,
    and [b] is as short as possible but not empty. *)
Definition button_wire (m : N) (b : bytes) : Prop :=
  exists k, List.length b + k = 4 /\ number (rev (b ++ repeat x00 k)) = m
    /\ b <> [] /\ (List.length b = 1 \/ last b x00 <> x00).

Inductive payload_wire : payload -> bytes -> Prop :=
| pw_fixed t vs n b : fixed_size t n -> struct_wire (layout t) vs b -> payload_wire (Pst t vs) b
| pw_string t l :
    In t [general_ReturniPodName; general_ReturniPodSerialNum; ext_ReturnIndexedPlayingTrackTitle;
          ext_ReturnIndexedPlayingTrackArtistName; ext_ReturnIndexedPlayingTrackAlbumName] ->
    payload_wire (Pst t [VBytes l]) l
| pw_model id l b : be32 id b -> payload_wire (Pst general_ReturniPodModelNum [VU id; VBytes l]) (b ++ l)
| pw_buttons t m b :
    In t [simple_ContextButtonStatus; simple_VideoButtonStatus; simple_AudioButtonStatus] ->
    button_wire m b -> payload_wire (Pst t [VU m; VBlank]) b
| pw_rates l b : sequence be32 l b -> payload_wire (Pst audio_RetAccSampleRateCaps [VU32s l]) b
| pw_tokens l b :
    (len l < 256)%N -> records token_wire l b -> payload_wire (PTokens l) (n2b (len l) :: b)
| pw_acks l b :
    (len l < 256)%N -> records ack_wire l b -> payload_wire (PTokenAcks l) (n2b (len l) :: b)
| pw_ext_info ty t vs b : struct_wire (layout t) vs b -> payload_wire (PExtTrackInfo ty (IPtr t vs)) (n2b ty :: b)
| pw_artwork l b :
    sequence (struct_wire (layout ext_ArtworkFormat)) l b -> payload_wire (PExtArtwork l) b
| pw_state ty t vs b : struct_wire (layout t) vs b -> payload_wire (PStateInfo ty (IPtr t vs)) (n2b ty :: b)
| pw_track ty t vs b : struct_wire (layout t) vs b -> payload_wire (PDispTrackInfo ty (IPtr t vs)) (n2b ty :: b)
| pw_unknown l : payload_wire (PUnknown l) l.

(** ** Reading: as the wire form, except that every non-zero byte is a true boolean *)
Inductive field_reads : fty -> fval -> bytes -> Prop :=
| fr_wire f v b : field_wire f v b -> field_reads f v b
| fr_true c : c <> x00 -> field_reads FBool (VBool true) [c].

Inductive struct_reads : list fty -> list fval -> bytes -> Prop :=
| sr_nil : struct_reads [] [] []
| sr_cons f fs v vs a b :
    field_reads f v a -> struct_reads fs vs b -> struct_reads (f :: fs) (v :: vs) (a ++ b).

(** [k] bytes taken off [r] where a failed read goes unnoticed: all zero when there are fewer
    than [k], and then nothing is left. *)
Inductive chunk (k : nat) : bytes -> bytes -> bytes -> Prop :=
| chunk_full b rest : List.length b = k -> chunk k (b ++ rest) b rest
| chunk_short r : List.length r < k -> chunk k r (repeat x00 k) [].

(** The first [k] bytes of [r], filled up with zero bytes. *)
Inductive padded (k : nat) : bytes -> bytes -> Prop :=
| pad_full b rest : List.length b = k -> padded k (b ++ rest) b
| pad_short r n : List.length r + n = k -> padded k r (r ++ repeat x00 n).

(** A zero-terminated text at the front of [r], with its terminator if there is one. *)
Inductive c_text : bytes -> bytes -> Prop :=
| ct_closed a rest : ~ In x00 a -> c_text (a ++ x00 :: rest) (a ++ [x00])
| ct_open a : ~ In x00 a -> c_text a a.

(** Accessory info: texts (name, manufacturer, model, serial number), versions of 3 bytes
    (firmware, hardware), the largest payload size (2 bytes), sets of 32 flags. *)
Inductive info_reads : N -> bytes -> bytes -> Prop :=
| ir_text ty r v : In ty [1; 6; 7; 8]%N -> c_text r v -> info_reads ty r v
| ir_version ty r v : In ty [4; 5]%N -> padded 3 r v -> info_reads ty r v
| ir_size r v : padded 2 r v -> info_reads 9 r v
| ir_flags ty r v : In ty [11; 12]%N -> padded 4 r v -> info_reads ty r v.

(** What is understood from the bytes of one token. *)
Inductive token_reads (rt : bool) : token_value -> bytes -> Prop :=
| tr_identify n r l r1 o r2 d r3 :
    chunk (N.to_nat (b2n n)) r l r1 -> chunk 4 r1 o r2 -> chunk 4 r2 d r3 ->
    token_reads rt (mkTV 0 0 (TokIdentify l (number o) (number d))) (x00 :: x00 :: n :: r)
| tr_caps r b rest :
    chunk 8 r b rest ->
    token_reads rt (mkTV 0 1 (TokStruct general_FIDAccCapsToken [VU (number b)])) (x00 :: x01 :: r)
| tr_info ty r v :
    info_reads (b2n ty) r v ->
    token_reads rt (mkTV 0 2 (TokAccInfo (b2n ty) (Some v))) (x00 :: x02 :: ty :: r)
| tr_protocol i s : token_reads rt (mkTV 0 4 (TokEAProtocol (b2n i) s)) (x00 :: x04 :: i :: s)
| tr_struct a b t vs w rest :
    token_struct (b2n a) (b2n b) t -> t <> general_FIDAccCapsToken -> struct_reads (layout t) vs w ->
    token_reads rt (mkTV (b2n a) (b2n b) (TokStruct t vs)) (a :: b :: w ++ rest)
| tr_raw a b l :
    rt = false -> ~ known_token (b2n a) (b2n b) ->
    token_reads rt (mkTV (b2n a) (b2n b) (TokRaw l)) (a :: b :: l).

Inductive ack_reads : token_ack -> bytes -> Prop :=
| ar a b l : ack_reads (mkTA (b2n a) (b2n b) (Some l)) (a :: b :: l).

(** [n] records, each preceded by its length in one byte.  What follows them is ignored; the
    last one may be shorter than announced. *)
Inductive records_read {A} (reads : A -> bytes -> Prop) : nat -> list A -> bytes -> Prop :=
| rr_nil rest : records_read reads 0 [] rest
| rr_cons n x l k a b :
    List.length a = N.to_nat (b2n k) -> reads x a -> records_read reads n l b ->
    records_read reads (S n) (x :: l) (k :: a ++ b)
| rr_cut x k a :
    List.length a < N.to_nat (b2n k) -> reads x a -> records_read reads 1 [x] (k :: a).

(** What is understood from the bytes of a payload of type [t]. *)
Inductive payload_reads (rt : bool) : pty -> bytes -> payload -> Prop :=
| py_fixed t n vs b rest :
    fixed_size t n -> struct_reads (layout t) vs b -> payload_reads rt t (b ++ rest) (Pst t vs)
| py_string t l :
    In t [general_ReturniPodName; general_ReturniPodSerialNum; general_RetDevAuthenticationSignature;
          ext_ReturnIndexedPlayingTrackTitle; ext_ReturnIndexedPlayingTrackArtistName;
          ext_ReturnIndexedPlayingTrackAlbumName] ->
    payload_reads rt t l (Pst t [VBytes l])
| py_model r b l :
    chunk 4 r b l ->
    payload_reads rt general_ReturniPodModelNum r (Pst general_ReturniPodModelNum [VU (number b); VBytes l])
| py_auth1 maj min rest :
    (b2n maj < 2)%N ->
    payload_reads rt general_RetDevAuthenticationInfo (maj :: min :: rest)
      (Pst general_RetDevAuthenticationInfo [VU (b2n maj); VU (b2n min); VU 0; VU 0; VBytes []])
| py_auth2 maj min cur max cert :
    (2 <= b2n maj)%N ->
    payload_reads rt general_RetDevAuthenticationInfo (maj :: min :: cur :: max :: cert)
      (Pst general_RetDevAuthenticationInfo
         [VU (b2n maj); VU (b2n min); VU (b2n cur); VU (b2n max); VBytes cert])
| py_launch a b c l :
    payload_reads rt general_RequestApplicationLaunch (a :: b :: c :: l)
      (Pst general_RequestApplicationLaunch [VU (b2n a); VU (b2n b); VU (b2n c); VBytes l])
| py_tokens n r l :
    records_read (token_reads rt) (N.to_nat (b2n n)) l r ->
    payload_reads rt general_SetFIDTokenValues (n :: r) (PTokens l)
| py_acks n r l :
    records_read ack_reads (N.to_nat (b2n n)) l r ->
    payload_reads rt general_RetFIDTokenValueACKs (n :: r) (PTokenAcks l)
| py_buttons t r b :
    In t [simple_ContextButtonStatus; simple_VideoButtonStatus; simple_AudioButtonStatus;
          simple_ButtonStates] ->
    r <> [] -> padded 4 r b -> payload_reads rt t r (Pst t [VU (number (rev b)); VBlank])
| py_ext_info ty t vs b rest :
    t = (if (b2n ty =? 0)%N then ext_TrackCaps
         else if ((b2n ty =? 3) || (b2n ty =? 4))%N then ext_TrackLongText else anon_struct) ->
    struct_reads (layout t) vs b ->
    payload_reads rt ext_ReturnIndexedPlayingTrackInfo (ty :: b ++ rest)
      (PExtTrackInfo (b2n ty) (IPtr t vs))
| py_artwork l b :
    sequence (struct_reads (layout ext_ArtworkFormat)) l b ->
    payload_reads rt ext_RetArtworkFormats b (PExtArtwork l)
| py_state ty t vs b rest :
    In (b2n ty, t) state_infos -> struct_reads (layout t) vs b ->
    payload_reads rt disp_RetiPodStateInfo (ty :: b ++ rest) (PStateInfo (b2n ty) (IPtr t vs))
| py_track ty t vs b rest :
    In (b2n ty, t) sized_track_infos -> struct_reads (layout t) vs b ->
    payload_reads rt disp_RetIndexedPlayingTrackInfo (ty :: b ++ rest)
      (PDispTrackInfo (b2n ty) (IPtr t vs))
| py_rates l b rest :
    sequence be32 l b -> List.length rest < 4 ->
    payload_reads rt audio_RetAccSampleRateCaps (b ++ rest) (Pst audio_RetAccSampleRateCaps [VU32s l]).
