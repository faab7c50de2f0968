(** Specification of the texts shown to users, independent of the generated tables. *)
From Coq Require Import Ascii Permutation.
From Verif Require Import Base.
Local Open Scope string_scope.

(** ** Numbers *)

(** [numeral digits s n]: [s] is [n] written in positional notation. *)
Inductive numeral (digits : string) : string -> N -> Prop :=
| num_nil : numeral digits "" 0
| num_snoc s n c d :
    numeral digits s n -> String.get (N.to_nat d) digits = Some c ->
    numeral digits (s ++ String c "") (n * N.of_nat (String.length digits) + d).

(** [n] in at least [w] digits, and no more than needed. *)
Definition written (digits : string) (w : nat) (n : N) (s : string) : Prop :=
  numeral digits s n /\ w <= String.length s /\ (w < String.length s -> String.get 0 s <> Some "0"%char).
Definition decimal (w : nat) (n : N) (s : string) : Prop := written "0123456789" w n s.
Definition hexadecimal (w : nat) (n : N) (s : string) : Prop :=
  exists d, s = "0x" ++ d /\ written "0123456789abcdef" w n d.

(** The text of a command id: its lingo and its command, [l] and [c], the latter in two digits or,
    in the extended interface lingo, four. *)
Definition id_text (id : N) (l c : string) : Prop :=
  hexadecimal 2 (id / 65536 mod 256) l
  /\ hexadecimal (if (id / 65536 mod 256 =? 4)%N then 4 else 2) (id mod 65536) c.

(** ** Names *)

(** [text_of names ty n s]: the text of value [n] of the type [ty] is its declared name, or the
    type's name with the number. *)
Inductive text_of (names : list (N * string)) (ty : string) (n : N) : string -> Prop :=
| text_named s : In (n, s) names -> text_of names ty n s
| text_number d : ~ In n (map fst names) -> decimal 1 n d -> text_of names ty n (ty ++ "(" ++ d ++ ")").

(** The declared constants. *)

(** lingo-general/general.go:219-231, with the lingo ids of lingo.go:196-207. *)
Definition LingoBit_names : list (N * string) :=
  [(2 ^ 0, "LingoGeneralBit"); (2 ^ 2, "LingoSimpleRemoteBit"); (2 ^ 3, "LingoDisplayRemoteBit"); (2 ^ 4, "LingoExtRemoteBit");
   (2 ^ 6, "LingoUSBHostBit"); (2 ^ 7, "LingoRFTunerBit"); (2 ^ 8, "LingoEqBit"); (2 ^ 9, "LingoSportsBit");
   (2 ^ 10, "LingoDigitalAudioBit"); (2 ^ 12, "LingoStorageBit")]%N.
(** lingo-general/general.go:504-512. *)
Definition AccInfoType_names : list (N * string) :=
  [(1, "AccInfoName"); (4, "AccInfoFirmware"); (5, "AccInfoHardware"); (6, "AccInfoMfr"); (7, "AccInfoModel");
   (8, "AccInfoSerial"); (9, "AccInfoMaxPayload")]%N.
(** lingo-general/general.go:470-483. *)
Definition AccCapBit_names : list (N * string) :=
  [(2 ^ 0, "AccCapAnalogLineOut"); (2 ^ 1, "AccCapAnalogLineIn"); (2 ^ 2, "AccCapAnalogVideoOut"); (2 ^ 4, "AccCapUSBAudio");
   (2 ^ 9, "AccCapAppComm"); (2 ^ 11, "AccCapCheckVolume")]%N.
(** lingo-simpleremote/simpleremote.go:70-102. *)
Definition ContextButtonBit_names : list (N * string) :=
  [(2 ^ 0, "ContextButtonPlayPause"); (2 ^ 1, "ContextButtonVolumeUp"); (2 ^ 2, "ContextButtonVolumeDown");
   (2 ^ 3, "ContextButtonNextTrack"); (2 ^ 4, "ContextButtonPreviousTrack"); (2 ^ 5, "ContextButtonNextAlbum");
   (2 ^ 6, "ContextButtonPreviousAlbum"); (2 ^ 7, "ContextButtonStop"); (2 ^ 8, "ContextButtonPlayResume");
   (2 ^ 9, "ContextButtonPause"); (2 ^ 10, "ContextButtonMuteToggle"); (2 ^ 11, "ContextButtonNextChapter");
   (2 ^ 12, "ContextButtonPreviousChapter"); (2 ^ 13, "ContextButtonNextPlaylist"); (2 ^ 14, "ContextButtonPreviousPlaylist");
   (2 ^ 15, "ContextButtonShuffleSettingAdvance"); (2 ^ 16, "ContextButtonRepeatSettingAdvance");
   (2 ^ 17, "ContextButtonPowerOn"); (2 ^ 18, "ContextButtonPowerOff"); (2 ^ 19, "ContextButtonBacklightfor30Seconds");
   (2 ^ 20, "ContextButtonBeginFastForward"); (2 ^ 21, "ContextButtonBeginRewind"); (2 ^ 22, "ContextButtonMenu");
   (2 ^ 23, "ContextButtonSelect"); (2 ^ 24, "ContextButtonUpArrow"); (2 ^ 25, "ContextButtonDownArrow");
   (2 ^ 26, "ContextButtonBacklightOff")]%N.
(** lingo-dispremote/dispremote.go:98-116. *)
Definition InfoType_names : list (N * string) :=
  [(0, "InfoTypeTrackPositionMs"); (1, "InfoTypeTrackIndex"); (2, "InfoTypeChapterIndex"); (3, "InfoTypePlayStatus");
   (4, "InfoTypeVolume"); (5, "InfoTypePower"); (6, "InfoTypeEqualizer"); (7, "InfoTypeShuffle"); (8, "InfoTypeRepeat");
   (9, "InfoTypeDateTime"); (11, "InfoTypeBacklight"); (12, "InfoTypeHoldSwitch"); (13, "InfoTypeSoundCheck");
   (14, "InfoTypeAudiobookSpeed"); (15, "InfoTypeTrackPositionSec"); (16, "InfoTypeVolume2")]%N.
(** lingo-dispremote/dispremote.go:133-140. *)
Definition PlayStatusType_names : list (N * string) :=
  [(0, "PlayStatusStopped"); (1, "PlayStatusPlaying"); (2, "PlayStatusPaused"); (3, "PlayStatusFF"); (4, "PlayStatusREW");
   (5, "PlayStatusEndFFREW")]%N.
(** lingo-dispremote/dispremote.go:266-276. *)
Definition TrackInfoType_names : list (N * string) :=
  [(0, "TrackInfoTypeCaps"); (1, "TrackInfoTypeChapterTimeName"); (2, "TrackInfoTypeArtist"); (3, "TrackInfoTypeAlbum");
   (4, "TrackInfoTypeGenre"); (5, "TrackInfoTypeTrack"); (6, "TrackInfoTypeComposer"); (7, "TrackInfoTypeLyrics");
   (8, "TrackInfoTypeArtworkCount")]%N.

(** ** Masks *)

(** Texts with a separator between them. *)
Inductive separated (sep : string) : list string -> string -> Prop :=
| sep_none : separated sep [] ""
| sep_one s : separated sep [s] s
| sep_more s t l r : separated sep (t :: l) r -> separated sep (s :: t :: l) (s ++ sep ++ r).

(** The bits set in the 32-bit mask [m], in ascending order. *)
Definition bits_set (m : N) : list N := filter (N.testbit m) (map N.of_nat (List.seq 0 32)).

(** [mask_text names ty m s]: the texts of the bits set in [m], with bars between them. *)
Definition mask_text (names : list (N * string)) (ty : string) (m : N) (s : string) : Prop :=
  exists labels, Forall2 (fun i l => text_of names ty (2 ^ i) l) (bits_set m) labels /\ separated " | " labels s.

(** ** Log lines *)

(** A text without line ends. *)
Definition one_line (s : string) : Prop := forall i, String.get i s <> Some "010"%char.

(** The keys in increasing (byte) order. *)
Fixpoint increasing (l : list string) : Prop :=
  match l with
  | x :: ((y :: _) as l') => String.ltb x y = true /\ increasing l'
  | _ => True
  end.

(** The four letters of a level (logrus numbers them from panic, 0, to trace, 6). *)
Definition level_tags : list (N * string) :=
  [(0, "PANI"); (1, "FATA"); (2, "ERRO"); (3, "WARN"); (4, "INFO"); (5, "DEBU"); (6, "TRAC")]%N.

(** A text of [n] blanks. *)
Inductive blanks : nat -> string -> Prop :=
| blanks_0 : blanks 0 ""
| blanks_S n s : blanks n s -> blanks (S n) (String " " s).

(** Colours of the levels, and a text in colour on a terminal. *)
Definition level_colors : list (N * string) :=
  [(0, "31"); (1, "31"); (2, "31"); (3, "33"); (4, "36"); (5, "37"); (6, "36")]%N.
Definition in_color (color s : string) : string := String "027" "[" ++ color ++ "m" ++ s ++ String "027" "[0m".

(** The fields of a log line, the keys shown by [show]. *)
Inductive fields_text {V} (show : string -> string) (text : V -> string) : list (string * V) -> string -> Prop :=
| ft_nil : fields_text show text [] ""
| ft_cons k v l s : fields_text show text l s ->
    fields_text show text ((k, v) :: l) (" " ++ show k ++ "=" ++ text v ++ s).

(** A log line: level, time since the start (of [t] ns), message padded to 44 characters, the
    fields by increasing key, and one line end. *)
Definition log_line {V} (show : string -> string) (runes : string -> nat) (text : V -> string)
    (level : N) (t : N) (msg : string) (data : list (string * V)) (line : string) : Prop :=
  exists tag secs micros pad fields ftext,
    In (level, tag) level_tags
    /\ decimal 4 (t / 1000000000) secs /\ decimal 6 (t mod 1000000000 / 1000) micros
    /\ blanks (44 - runes msg) pad
    /\ Permutation data fields /\ increasing (map fst fields) /\ fields_text show text fields ftext
    /\ line = show tag ++ "[" ++ secs ++ "." ++ micros ++ "] " ++ msg ++ pad ++ " " ++ ftext ++ String "010" "".
