(** Payload values and their wire encodings: the MarshalBinary/UnmarshalBinary methods of the
    lingo packages, and encoding/binary for the payloads that have none. *)
From Verif Require Import Base GoTypes Types.

(** ** Values *)

(** Contents of an [interface{}] field as far as the code stores any: nil, a pointer to a
    struct, a struct value (extremote/handler.go:61), a byte slice (extremote/handler.go:63). *)
Inductive iface : Type :=
| INil
| IPtr (t : pty) (vs : list fval)
| IVal (t : pty) (vs : list fval)
| IBytes (l : bytes).

(** Contents of [FIDTokenValue.Token] (general.go:592-595).  The structs of fixed size (accessory
    capabilities, preference, bundle seed, screen, EA metadata, microphone) share [TokStruct]. *)
Inductive token : Type :=
| TokNil
| TokIdentify (lingoes : bytes) (options device : N)   (** general.go:439-443 *)
| TokAccInfo (ty : N) (value : option bytes)            (** general.go:514-517 *)
| TokEAProtocol (index : N) (str : bytes)               (** general.go:550-553 *)
| TokStruct (t : pty) (vs : list fval)
| TokRaw (l : bytes).                                   (** a [[]byte], general.go:668-670 *)

(** general.go:592-595 [FIDTokenValue]; the id is [TokenID] (587-590). *)
Record token_value := mkTV { tv_type : N; tv_sub : N; tv_token : token }.

(** general.go:716-719 [FIDTokenValueACK]; [None] is a nil interface. *)
Record token_ack := mkTA { ta_type : N; ta_sub : N; ta_ack : option bytes }.

(** A [Command.Payload] that is not nil.  All constructors but the last stand for pointers to
    structs; types holding interfaces or slices of structs have their own constructor. *)
Inductive payload : Type :=
| Pst (t : pty) (vs : list fval)
| PTokens (l : list token_value)                 (** *general.SetFIDTokenValues *)
| PTokenAcks (l : list token_ack)                (** *general.RetFIDTokenValueACKs *)
| PExtTrackInfo (ty : N) (info : iface)          (** *extremote.ReturnIndexedPlayingTrackInfo *)
| PExtArtwork (l : list (list fval))             (** *extremote.RetArtworkFormats *)
| PStateInfo (ty : N) (info : iface)             (** *dispremote.RetiPodStateInfo *)
| PDispTrackInfo (ty : N) (info : iface)         (** *dispremote.RetIndexedPlayingTrackInfo *)
| PDispArtwork (l : list (list fval))            (** *dispremote.RetArtworkFormats *)
| PUnknown (l : bytes).                          (** ipod.UnknownPayload, a slice value (cmd.go:17) *)

(** Struct type a payload points to; [None] for the non-pointer [UnknownPayload]. *)
Definition payload_type (p : payload) : option pty :=
  match p with
  | Pst t _ => Some t
  | PTokens _ => Some general_SetFIDTokenValues
  | PTokenAcks _ => Some general_RetFIDTokenValueACKs
  | PExtTrackInfo _ _ => Some ext_ReturnIndexedPlayingTrackInfo
  | PExtArtwork _ => Some ext_RetArtworkFormats
  | PStateInfo _ _ => Some disp_RetiPodStateInfo
  | PDispTrackInfo _ _ => Some disp_RetIndexedPlayingTrackInfo
  | PDispArtwork _ => Some disp_RetArtworkFormats
  | PUnknown _ => None
  end.

(** ** Errors *)

Definition err_text (e : goerr) : string :=
  match e with
  | EOF => "EOF"
  | UnexpectedEOF => "unexpected EOF"
  | NoProgress => "multiple Read calls return no data or error"
  | ErrMsg s => s
  end.

Definition errShortPacket := ErrMsg "short packet".                (* general.go:268,274 *)
Definition errUnknownToken := ErrMsg "unknown token".              (* general.go:616 *)
Definition errUnknownAck := ErrMsg "unknown ack".                  (* general.go:740 *)
Definition errAccInfoType := ErrMsg "unknown AccInfoToken type".   (* general.go:539 *)
Definition errUnknownInfoType := ErrMsg "unknown info type".       (* dispremote.go:242,369 *)
Definition errInvalidData := ErrMsg "invalid data".                (* simpleremote.go:63 *)

(** encoding/binary's errors for types of no fixed size (text of Go 1.15; later versions word
    them differently). *)
Definition errInvalidWrite (t : pty) := ErrMsg ("binary.Write: invalid type *" ++ type_name t).
Definition errInvalidRead (t : pty) := ErrMsg ("binary.Read: invalid type *" ++ type_name t).

(** ** encoding/binary on struct pointers *)

(** binary.Write(w, BigEndian, p) for a pointer to (or value of) a struct of type [t]. *)
Definition binary_write (t : pty) (vs : list fval) : res bytes :=
  match struct_size (layout t) with
  | Some _ => Ok (enc_fields (layout t) vs)
  | None => Err (errInvalidWrite t)
  end.

(** binary.Read(r, BigEndian, p) into a fresh struct of type [t]: result and unread bytes. *)
Definition binary_read (t : pty) (l : bytes) : res (list fval) * bytes :=
  match struct_size (layout t) with
  | None => (Err (errInvalidRead t), l)
  | Some n =>
      match read_full n l with
      | (Ok b, rest) => (Ok (dec_fields (layout t) b), rest)
      | (Err e, rest) => (Err e, rest)
      end
  end.

(** binary.Read into an unsigned integer of [k] bytes whose error is ignored: the variable
    keeps its zero value when the bytes are missing, and a partial read consumes them. *)
Definition read_uint_or0 (k : nat) (l : bytes) : N * bytes :=
  match read_full k l with
  | (Ok b, rest) => (be_dec b, rest)
  | (Err _, rest) => (0%N, rest)
  end.

(** ** FID tokens (lingo-general/general.go)

    [rt] tells whether binary.Size(nil) panics (it does up to Go 1.21, later versions return
    -1); it matters for tokens and acks that hold a nil interface. *)

(** general.go:445-452 [FIDIdentifyToken.MarshalBinary]. *)
Definition identify_marshal (lingoes : bytes) (options device : N) : bytes :=
  [n2b (len lingoes)] ++ lingoes ++ be_enc 4 options ++ be_enc 4 device.

(** general.go:454-465 [FIDIdentifyToken.UnmarshalBinary]. *)
Definition identify_unmarshal (data : bytes) : res token :=
  match data with
  | [] => Err EOF                                                  (* 456-459 *)
  | n :: r0 =>
      let '(lingoes, r1) :=                                        (* 460-461 *)
        match read_full (N.to_nat (b2n n)) r0 with
        | (Ok b, r) => (b, r)
        | (Err _, r) => (repeat x00 (N.to_nat (b2n n)), r)
        end in
      let '(options, r2) := read_uint_or0 4 r1 in                  (* 462 *)
      let '(device, _) := read_uint_or0 4 r2 in                    (* 463 *)
      Ok (TokIdentify lingoes options device)
  end.

(** bufio.Reader.ReadBytes(0x00) on a whole string, error ignored: everything up to and
    including the first zero byte, or everything. *)
Definition read_cstring (l : bytes) : bytes :=
  match index_byte x00 l with
  | Some i => firstn (i + 1) l
  | None => l
  end.

(** general.go:519-542 [FIDAccInfoToken.UnmarshalBinary]; an empty string leaves type 0. *)
Definition accinfo_unmarshal (data : bytes) : res token :=
  let '(ty, r) := read_uint_or0 1 data in                          (* 521 *)
  match ty with
  | 1 | 6 | 7 | 8 => Ok (TokAccInfo ty (Some (read_cstring r)))    (* 524-525 *)
  | 4 | 5 => Ok (TokAccInfo ty (Some (copy_zeroed 3 r)))           (* 526-529 *)
  | 9 => Ok (TokAccInfo ty (Some (copy_zeroed 2 r)))               (* 530-533 *)
  | 11 | 12 => Ok (TokAccInfo ty (Some (copy_zeroed 4 r)))         (* 534-537 *)
  | _ => Err errAccInfoType                                        (* 538-539 *)
  end%N.

(** general.go:555-559 [FIDEAProtocolToken.UnmarshalBinary]; [data[0]] panics when empty. *)
Definition eaprotocol_unmarshal (data : bytes) : outcome token :=
  match data with
  | [] => Panic
  | b :: r => Ret (TokEAProtocol (b2n b) r)
  end.

(** general.go:597-619 [FIDTokenValue.MarshalBinary]. *)
Definition token_value_marshal (rt : bool) (v : token_value) : outcome (res bytes) :=
  let id := [n2b (tv_type v); n2b (tv_sub v)] in                   (* 599 *)
  match tv_token v with
  | TokIdentify a b c => Ret (Ok (id ++ identify_marshal a b c))   (* 603-608 *)
  | TokStruct t vs =>                                              (* 609-612 *)
      match struct_size (layout t) with
      | Some _ => Ret (Ok (id ++ enc_fields (layout t) vs))
      | None => Ret (Err errUnknownToken)
      end
  | TokRaw l => Ret (Ok (id ++ l))                                 (* 609-612: a byte slice has a size *)
  | TokAccInfo _ _ | TokEAProtocol _ _ => Ret (Err errUnknownToken) (* 615-616 *)
  | TokNil => if rt then Panic else Ret (Err errUnknownToken)      (* 609 *)
  end.

(** general.go:627-659: the token chosen by the two id bytes. *)
Inductive token_kind := KIdentify | KAccCaps | KAccInfo | KEAProtocol | KFixed (t : pty) | KNone.

Definition token_kind_of (ty sub : N) : token_kind :=
  match ty with
  | 0 => match sub with
         | 0 => KIdentify                                          (* 630-632 *)
         | 1 => KAccCaps                                           (* 633-635 *)
         | 2 => KAccInfo                                           (* 636-638 *)
         | 3 => KFixed general_FIDiPodPreferenceToken              (* 639-641 *)
         | 4 => KEAProtocol                                        (* 642-644 *)
         | 5 => KFixed general_FIDBundleSeedIDPrefToken            (* 645-647 *)
         | 7 => KFixed general_FIDScreenInfoToken                  (* 648-650 *)
         | 8 => KFixed general_FIDEAProtocolMetadataToken          (* 651-653 *)
         | _ => KNone
         end
  | 1 => KFixed general_FIDMicrophoneCapsToken                     (* 656-658 *)
  | _ => KNone
  end%N.

(** general.go:621-673 [FIDTokenValue.UnmarshalBinary]. *)
Definition token_value_unmarshal (rt : bool) (data : bytes) : outcome (res token_value) :=
  match read_full 2 data with                                      (* 623-625 *)
  | (Err e, _) => Ret (Err e)
  | (Ok idb, r) =>
      let ty := b2n (nth 0 idb x00) in
      let sub := b2n (nth 1 idb x00) in
      match token_kind_of ty sub with
      | KIdentify =>                                               (* 661-664 *)
          match identify_unmarshal r with
          | Ok t => Ret (Ok (mkTV ty sub t))
          | Err e => Ret (Err e)
          end
      | KAccCaps =>                                                (* 495-499, 661-664 *)
          Ret (Ok (mkTV ty sub (TokStruct general_FIDAccCapsToken [VU (fst (read_uint_or0 8 r))])))
      | KAccInfo =>                                                (* 661-664 *)
          match accinfo_unmarshal r with
          | Ok t => Ret (Ok (mkTV ty sub t))
          | Err e => Ret (Err e)
          end
      | KEAProtocol =>                                             (* 661-664 *)
          do t <- eaprotocol_unmarshal r; Ret (Ok (mkTV ty sub t))
      | KFixed t =>                                                (* 665-666 *)
          match fst (binary_read t r) with
          | Ok vs => Ret (Ok (mkTV ty sub (TokStruct t vs)))
          | Err e => Ret (Err e)
          end
      | KNone =>                                                   (* 665, 667-671 *)
          if rt then Panic else Ret (Ok (mkTV ty sub (TokRaw r)))
      end
  end.

(** general.go:683-690, the loop of [SetFIDTokenValues.MarshalBinary]. *)
Fixpoint tokens_marshal_loop (rt : bool) (l : list token_value) : outcome (res bytes) :=
  match l with
  | [] => Ret (Ok [])
  | v :: l' =>
      do r <- token_value_marshal rt v;
      match r with
      | Err e => Ret (Err e)
      | Ok b =>
          do r2 <- tokens_marshal_loop rt l';
          match r2 with
          | Err e => Ret (Err e)
          | Ok bs => Ret (Ok (n2b (len b) :: b ++ bs))
          end
      end
  end.

(** general.go:679-692 [SetFIDTokenValues.MarshalBinary]. *)
Definition tokens_marshal (rt : bool) (l : list token_value) : outcome (res bytes) :=
  do r <- tokens_marshal_loop rt l;
  match r with
  | Err e => Ret (Err e)
  | Ok bs => Ret (Ok (n2b (len l) :: bs))
  end.

(** general.go:701-712, the loop of [SetFIDTokenValues.UnmarshalBinary] over the [n]
    announced tokens; [br.Next(k)] returns fewer bytes when fewer are left. *)
Fixpoint tokens_unmarshal_loop (rt : bool) (n : nat) (data : bytes) : outcome (res (list token_value)) :=
  match n with
  | 0 => Ret (Ok [])
  | S n' =>
      match data with
      | [] => Ret (Err EOF)                                        (* 703-706 *)
      | k :: r =>
          let tl := N.to_nat (b2n k) in
          do v <- token_value_unmarshal rt (firstn tl r);          (* 708-711 *)
          match v with
          | Err e => Ret (Err e)
          | Ok v =>
              do vs <- tokens_unmarshal_loop rt n' (skipn tl r);
              match vs with
              | Err e => Ret (Err e)
              | Ok vs => Ret (Ok (v :: vs))
              end
          end
      end
  end.

(** general.go:694-714 [SetFIDTokenValues.UnmarshalBinary]. *)
Definition tokens_unmarshal (rt : bool) (data : bytes) : outcome (res (list token_value)) :=
  match data with
  | [] => Ret (Err EOF)                                            (* 696-699 *)
  | n :: r => tokens_unmarshal_loop rt (N.to_nat (b2n n)) r
  end.

(** general.go:721-743 [FIDTokenValueACK.MarshalBinary]. *)
Definition ack_marshal (rt : bool) (a : token_ack) : outcome (res bytes) :=
  let id := [n2b (ta_type a); n2b (ta_sub a)] in
  match ta_ack a with
  | Some b => Ret (Ok (id ++ b))                                   (* 733-736: a byte slice has a size *)
  | None => if rt then Panic else Ret (Err errUnknownAck)          (* 733, 740 *)
  end.

(** general.go:745-756 [FIDTokenValueACK.UnmarshalBinary]. *)
Definition ack_unmarshal (data : bytes) : res token_ack :=
  match read_full 2 data with
  | (Err e, _) => Err e
  | (Ok idb, r) => Ok (mkTA (b2n (nth 0 idb x00)) (b2n (nth 1 idb x00)) (Some r))
  end.

(** general.go:766-773, loop of [RetFIDTokenValueACKs.MarshalBinary]. *)
Fixpoint acks_marshal_loop (rt : bool) (l : list token_ack) : outcome (res bytes) :=
  match l with
  | [] => Ret (Ok [])
  | a :: l' =>
      do r <- ack_marshal rt a;
      match r with
      | Err e => Ret (Err e)
      | Ok b =>
          do r2 <- acks_marshal_loop rt l';
          match r2 with
          | Err e => Ret (Err e)
          | Ok bs => Ret (Ok (n2b (len b) :: b ++ bs))
          end
      end
  end.

(** general.go:762-775 [RetFIDTokenValueACKs.MarshalBinary]. *)
Definition acks_marshal (rt : bool) (l : list token_ack) : outcome (res bytes) :=
  do r <- acks_marshal_loop rt l;
  match r with
  | Err e => Ret (Err e)
  | Ok bs => Ret (Ok (n2b (len l) :: bs))
  end.

(** general.go:784-794, loop of [RetFIDTokenValueACKs.UnmarshalBinary]. *)
Fixpoint acks_unmarshal_loop (n : nat) (data : bytes) : res (list token_ack) :=
  match n with
  | 0 => Ok []
  | S n' =>
      match data with
      | [] => Err EOF
      | k :: r =>
          let al := N.to_nat (b2n k) in
          match ack_unmarshal (firstn al r) with
          | Err e => Err e
          | Ok a =>
              match acks_unmarshal_loop n' (skipn al r) with
              | Err e => Err e
              | Ok l => Ok (a :: l)
              end
          end
      end
  end.

(** general.go:777-796 [RetFIDTokenValueACKs.UnmarshalBinary]. *)
Definition acks_unmarshal (data : bytes) : res (list token_ack) :=
  match data with
  | [] => Err EOF
  | n :: r => acks_unmarshal_loop (N.to_nat (b2n n)) r
  end.

(** ** Other methods of lingo-general *)

(** general.go:182-187 [ReturniPodModelNum.MarshalBinary]. *)
Definition modelnum_marshal (id : N) (model : bytes) : bytes := be_enc 4 id ++ model.

(** general.go:189-198 [ReturniPodModelNum.UnmarshalBinary]: (ModelID, Model). *)
Definition modelnum_unmarshal (data : bytes) : N * bytes := read_uint_or0 4 data.

(** general.go:266-284 [RetDevAuthenticationInfo.UnmarshalBinary]. *)
Definition devauthinfo_unmarshal (r : bytes) : res (list fval) :=
  match r with
  | major :: minor :: r2 =>
      if (2 <=? b2n major)%N then                                  (* 272 *)
        match r2 with
        | cur :: max :: data =>
            Ok [VU (b2n major); VU (b2n minor); VU (b2n cur); VU (b2n max); VBytes data]
        | _ => Err errShortPacket                                  (* 273-275 *)
        end
      else Ok [VU (b2n major); VU (b2n minor); VU 0; VU 0; VBytes []]
  | _ => Err errShortPacket                                        (* 267-269 *)
  end.

(** general.go:894-900 [RequestApplicationLaunch.UnmarshalBinary]: indexing panics when short. *)
Definition applaunch_unmarshal (data : bytes) : outcome (list fval) :=
  match data with
  | a :: b :: c :: r => Ret [VU (b2n a); VU (b2n b); VU (b2n c); VBytes r]
  | _ => Panic
  end.

(** ** lingo-simpleremote *)

(** math/bits.Len32. *)
Definition bits_len (n : N) : N := N.size n.

(** simpleremote.go:46-54 [ButtonStates.MarshalBinary]. *)
Definition buttons_marshal (m : N) : bytes :=
  let byteLen := ((bits_len m + 7) / 8)%N in                       (* 49 *)
  let byteLen := if (byteLen =? 0)%N then 1%N else byteLen in      (* 50-52 *)
  firstn (N.to_nat byteLen) (le_enc 4 m).                          (* 48, 53 *)

(** simpleremote.go:56-65 [ButtonStates.UnmarshalBinary]: [copy] of at most 4 bytes. *)
Definition buttons_unmarshal (data : bytes) : res N :=
  match data with
  | [] => Err errInvalidData                                       (* 62-63 *)
  | _ :: _ => Ok (le_dec (copy_zeroed 4 data))                     (* 58-61 *)
  end.

(** ** lingo-audio *)

(** audio.go:48-52 [RetAccSampleRateCaps.MarshalBinary]. *)
Definition rates_marshal (l : list N) : bytes := flat_map (be_enc 4) l.

(** [n] big-endian 32-bit integers. *)
Fixpoint dec_u32s (n : nat) (data : bytes) : list N :=
  match n with
  | 0 => []
  | S n' => be_dec (firstn 4 data) :: dec_u32s n' (skipn 4 data)
  end.

(** audio.go:43-46 [RetAccSampleRateCaps.UnmarshalBinary]: len/4 integers are read. *)
Definition rates_unmarshal (data : bytes) : list N := dec_u32s (List.length data / 4) data.

(** ** lingo-extremote *)

(** extremote.go:181-188: the Info type chosen by InfoType. *)
Definition ext_track_info_type (ty : N) : pty :=
  match ty with
  | 0 => ext_TrackCaps                                             (* TrackInfoCaps *)
  | 3 | 4 => ext_TrackLongText                                     (* Description, Lyrics *)
  | _ => anon_struct
  end%N.

(** binary.Write of an interface value.  nil panics: up to Go 1.21 in binary.Write's
    dataSize, later in the construction of the error text. *)
Definition write_iface (i : iface) : outcome (res bytes) :=
  match i with
  | INil => Panic
  | IPtr t vs | IVal t vs => Ret (binary_write t vs)
  | IBytes l => Ret (Ok l)
  end.

(** extremote.go:164-173 [ReturnIndexedPlayingTrackInfo.MarshalBinary]. *)
Definition ext_track_info_marshal (ty : N) (i : iface) : outcome (res bytes) :=
  do r <- write_iface i;
  match r with
  | Err e => Ret (Err e)
  | Ok b => Ret (Ok (n2b ty :: b))
  end.

(** extremote.go:175-193 [ReturnIndexedPlayingTrackInfo.UnmarshalBinary]. *)
Definition ext_track_info_unmarshal (data : bytes) : res payload :=
  match data with
  | [] => Err EOF                                                  (* 177-179 *)
  | b :: r =>
      let t := ext_track_info_type (b2n b) in
      match fst (binary_read t r) with                             (* 189-191 *)
      | Ok vs => Ok (PExtTrackInfo (b2n b) (IPtr t vs))
      | Err e => Err e
      end
  end.

(** extremote.go:208-214 [RetArtworkFormats.MarshalBinary]. *)
Definition ext_artwork_marshal (l : list (list fval)) : bytes :=
  flat_map (enc_fields (layout ext_ArtworkFormat)) l.

(** extremote.go:216-231 [RetArtworkFormats.UnmarshalBinary]: reads entries until EOF.  Every
    iteration that does not stop consumes 7 bytes, so [fuel = length data + 1] is never
    exhausted (PayloadFacts.ext_artwork_fuel). *)
Fixpoint ext_artwork_loop (fuel : nat) (data : bytes) : res (list (list fval)) :=
  match fuel with
  | 0 => Err (ErrMsg "out of fuel")
  | S fuel' =>
      match binary_read ext_ArtworkFormat data with
      | (Err EOF, _) => Ok []                                      (* 222-224 *)
      | (Err e, _) => Err e                                        (* 225-227 *)
      | (Ok f, rest) =>
          match ext_artwork_loop fuel' rest with
          | Ok fs => Ok (f :: fs)
          | Err e => Err e
          end
      end
  end.
Definition ext_artwork_unmarshal (data : bytes) : res (list (list fval)) :=
  ext_artwork_loop (List.length data + 1) data.

(** ** lingo-dispremote *)

(** dispremote.go:208-243: the InfoData type chosen by InfoType. *)
Definition state_info_type (ty : N) : option pty :=
  match ty with
  | 0 => Some disp_InfoTrackPositionMs
  | 1 => Some disp_InfoTrackIndex
  | 2 => Some disp_InfoChapterIndex
  | 3 => Some disp_InfoPlayStatus
  | 4 => Some disp_InfoVolume
  | 5 => Some disp_InfoPower
  | 6 => Some disp_InfoEqualizer
  | 7 => Some disp_InfoShuffle
  | 8 => Some disp_InfoRepeat
  | 9 => Some disp_InfoDateTime
  | 11 => Some disp_InfoBacklight
  | 12 => Some disp_InfoHoldSwitch
  | 13 => Some disp_InfoSoundCheck
  | 14 => Some disp_InfoAudiobookSpeed
  | 15 => Some disp_InfoTrackPositionSec
  | 16 => Some disp_InfoVolume2
  | _ => None
  end%N.

(** dispremote.go:332-370: same for track info. *)
Definition disp_track_info_type (ty : N) : option pty :=
  match ty with
  | 0 => Some disp_TrackInfoCaps
  | 1 => Some disp_TrackInfoChapterTimeName
  | 2 => Some disp_TrackInfoArtist
  | 3 => Some disp_TrackInfoAlbum
  | 4 => Some disp_TrackInfoGenre
  | 5 => Some disp_TrackInfoTrack
  | 6 => Some disp_TrackInfoComposer
  | 7 => Some disp_TrackInfoLyrics
  | 8 => Some disp_TrackInfoArtworkCount
  | _ => None
  end%N.

(** dispremote.go:198-203 and 322-327, the two [MarshalBinary] with ignored errors. *)
Definition disp_info_marshal (ty : N) (i : iface) : outcome (res bytes) :=
  do r <- write_iface i;
  match r with
  | Err _ => Ret (Ok [n2b ty])                                     (* 201, 325: error dropped *)
  | Ok b => Ret (Ok (n2b ty :: b))
  end.

(** dispremote.go:205-245 and 329-372, the two [UnmarshalBinary]; [sel] is the type switch.
    A missing type byte leaves InfoType 0 (207, 331). *)
Definition disp_info_unmarshal (sel : N -> option pty) (data : bytes) : res (N * iface) :=
  let '(ty, r) := read_uint_or0 1 data in
  match sel ty with
  | None => Err errUnknownInfoType
  | Some t =>
      match fst (binary_read t r) with
      | Ok vs => Ok (ty, IPtr t vs)
      | Err e => Err e
      end
  end.

(** ** Dispatch *)

Definition ret_ok (b : bytes) : option (outcome (res bytes)) := Some (Ret (Ok b)).

(** [payload.(encoding.BinaryMarshaler)] and its MarshalBinary: [None] when the type has none. *)
Definition payload_marshaler (rt : bool) (p : payload) : option (outcome (res bytes)) :=
  match p with
  | Pst t vs =>
      match t, vs with
      | general_ReturniPodName, [VBytes l] => ret_ok l                          (* general.go:142-144 *)
      | general_ReturniPodSerialNum, [VBytes l] => ret_ok l                     (* general.go:165-167 *)
      | general_ReturniPodModelNum, [VU id; VBytes l] => ret_ok (modelnum_marshal id l)
      | simple_ContextButtonStatus, [VU m; VBlank] => ret_ok (buttons_marshal m) (* simpleremote.go:122-125 *)
      | simple_VideoButtonStatus, [VU m; VBlank] => ret_ok (buttons_marshal m)  (* 137-139, promoted *)
      | simple_AudioButtonStatus, [VU m; VBlank] => ret_ok (buttons_marshal m)  (* 140-142, promoted *)
      | simple_ButtonStates, [VU m; VBlank] => ret_ok (buttons_marshal m)
      | ext_ReturnIndexedPlayingTrackTitle, [VBytes l] => ret_ok l              (* extremote.go:319-321 *)
      | ext_ReturnIndexedPlayingTrackArtistName, [VBytes l] => ret_ok l         (* extremote.go:336-338 *)
      | ext_ReturnIndexedPlayingTrackAlbumName, [VBytes l] => ret_ok l          (* extremote.go:353-355 *)
      | audio_RetAccSampleRateCaps, [VU32s l] => ret_ok (rates_marshal l)
      | _, _ => None
      end
  | PTokens l => Some (tokens_marshal rt l)
  | PTokenAcks l => Some (acks_marshal rt l)
  | PExtTrackInfo ty i => Some (ext_track_info_marshal ty i)
  | PExtArtwork l => ret_ok (ext_artwork_marshal l)
  | PStateInfo ty i => Some (disp_info_marshal ty i)
  | PDispTrackInfo ty i => Some (disp_info_marshal ty i)
  | PDispArtwork _ => None
  | PUnknown _ => None
  end.

(** binary.Write of a payload without MarshalBinary. *)
Definition payload_binary_write (p : payload) : res bytes :=
  match p with
  | Pst t vs => binary_write t vs
  | PUnknown l => Ok l
  | _ => match payload_type p with
         | Some t => binary_write t []
         | None => Ok []
         end
  end.

(** cmd.go:147-158: [payload.(encoding.BinaryUnmarshaler)] of a fresh value of type [t] and its
    UnmarshalBinary, else binary.Read.  The boolean tells which of the two was used. *)
Definition payload_unmarshal (rt : bool) (t : pty) (data : bytes) : outcome (bool * res payload) :=
  let ok p := Ret (true, Ok p) in
  let of_res {A} (f : A -> payload) (r : res A) :=
    Ret (true, match r with Ok a => Ok (f a) | Err e => Err e end) in
  match t with
  | general_ReturniPodName => ok (Pst t [VBytes data])                   (* general.go:146-150 *)
  | general_ReturniPodSerialNum => ok (Pst t [VBytes data])              (* general.go:169-173 *)
  | general_ReturniPodModelNum =>
      let '(id, m) := modelnum_unmarshal data in ok (Pst t [VU id; VBytes m])
  | general_RetDevAuthenticationInfo => of_res (Pst t) (devauthinfo_unmarshal data)
  | general_RetDevAuthenticationSignature => ok (Pst t [VBytes data])    (* general.go:309-313 *)
  | general_RequestApplicationLaunch =>
      do vs <- applaunch_unmarshal data; ok (Pst t vs)
  | general_SetFIDTokenValues =>
      do r <- tokens_unmarshal rt data; of_res PTokens r
  | general_RetFIDTokenValueACKs => of_res PTokenAcks (acks_unmarshal data)
  | simple_ContextButtonStatus | simple_VideoButtonStatus
  | simple_AudioButtonStatus | simple_ButtonStates =>                    (* simpleremote.go:127-134 *)
      of_res (fun m => Pst t [VU m; VBlank]) (buttons_unmarshal data)
  | ext_ReturnIndexedPlayingTrackTitle                                   (* extremote.go:323-327 *)
  | ext_ReturnIndexedPlayingTrackArtistName                              (* extremote.go:340-344 *)
  | ext_ReturnIndexedPlayingTrackAlbumName =>                            (* extremote.go:357-361 *)
      ok (Pst t [VBytes data])
  | ext_ReturnIndexedPlayingTrackInfo => of_res (fun p => p) (ext_track_info_unmarshal data)
  | ext_RetArtworkFormats => of_res PExtArtwork (ext_artwork_unmarshal data)
  | disp_RetiPodStateInfo =>
      of_res (fun ti => PStateInfo (fst ti) (snd ti)) (disp_info_unmarshal state_info_type data)
  | disp_RetIndexedPlayingTrackInfo =>
      of_res (fun ti => PDispTrackInfo (fst ti) (snd ti)) (disp_info_unmarshal disp_track_info_type data)
  | audio_RetAccSampleRateCaps => ok (Pst t [VU32s (rates_unmarshal data)])
  | _ =>
      Ret (false, match fst (binary_read t data) with
                  | Ok vs => Ok (Pst t vs)
                  | Err e => Err e
                  end)
  end.
