(** Model of the texts shown to users: the String methods generated by stringer, masks,
    transactions, and the log lines of cmd/ipod/formatter.go. *)
From Coq Require Import Ascii.
From Verif Require Import Base GoTypes Types Payload Lingo.
Local Open Scope string_scope.

(** ** Strings *)

(** Go's [s[a:b]]: panics when out of range. *)
Definition str_slice (s : string) (a b : nat) : outcome string :=
  if (Nat.leb a b && Nat.leb b (String.length s))%bool then Ret (substring a (b - a) s) else Panic.

(** [name[index[i]:index[i+1]]]: panics when the index is out of range. *)
Definition name_at (name : string) (index : list nat) (i : N) : outcome string :=
  match nth_error index (N.to_nat i), nth_error index (N.to_nat (i + 1)) with
  | Some a, Some b => str_slice name a b
  | _, _ => Panic
  end.

(** strconv.FormatInt(n, 10) for n >= 0.  The standard library handles two digits at a time; this
    is digit by digit. *)
Fixpoint format_dec (fuel : nat) (n : N) : string :=
  match fuel with
  | O => ""
  | S fuel' => if (n <? 10)%N then String (hex_digit n) ""
               else format_dec fuel' (n / 10) ++ String (hex_digit (n mod 10)) ""
  end.
Definition FormatInt (n : N) : string := format_dec (S (N.to_nat (N.size n))) n.

(** strings.Join. *)
Definition Join (sep : string) (l : list string) : string := String.concat sep l.

(** ** lingo-general/lingobit_string.go:23-60 *)
Definition LingoBit_String (i : N) : outcome string :=
  if (i =? 1)%N then Ret "LingoGeneralBit"
  else if (i =? 4)%N then Ret "LingoSimpleRemoteBit"
  else if (i =? 8)%N then Ret "LingoDisplayRemoteBit"
  else if (i =? 16)%N then Ret "LingoExtRemoteBit"
  else if (i =? 64)%N then Ret "LingoUSBHostBit"
  else if (i =? 128)%N then Ret "LingoRFTunerBit"
  else if (i =? 256)%N then Ret "LingoEqBit"
  else if (i =? 512)%N then Ret "LingoSportsBit"
  else if (i =? 1024)%N then Ret "LingoDigitalAudioBit"
  else if (i =? 4096)%N then Ret "LingoStorageBit"
  else Ret ("LingoBit(" ++ FormatInt i ++ ")").

(** ** lingo-general/accinfotype_string.go:20-38 *)
Definition AccInfoType_name_1 : string := "AccInfoFirmwareAccInfoHardwareAccInfoMfrAccInfoModelAccInfoSerialAccInfoMaxPayload".
Definition AccInfoType_index_1 : list nat := [0; 15; 30; 40; 52; 65; 82].
Definition AccInfoType_String (i : N) : outcome string :=
  if (i =? 1)%N then Ret "AccInfoName"
  else if ((4 <=? i)%N && (i <=? 9)%N)%bool then name_at AccInfoType_name_1 AccInfoType_index_1 (i - 4)
  else Ret ("AccInfoType(" ++ FormatInt i ++ ")").

(** ** lingo-general/acccapbit_string.go:19-46 *)
Definition AccCapBit_name_0 : string := "AccCapAnalogLineOutAccCapAnalogLineIn".
Definition AccCapBit_index_0 : list nat := [0; 19; 37].
Definition AccCapBit_String (i : N) : outcome string :=
  if ((1 <=? i)%N && (i <=? 2)%N)%bool then name_at AccCapBit_name_0 AccCapBit_index_0 (i - 1)
  else if (i =? 4)%N then Ret "AccCapAnalogVideoOut"
  else if (i =? 16)%N then Ret "AccCapUSBAudio"
  else if (i =? 512)%N then Ret "AccCapAppComm"
  else if (i =? 2048)%N then Ret "AccCapCheckVolume"
  else Ret ("AccCapBit(" ++ FormatInt i ++ ")").

(** ** lingo-simpleremote/contextbuttonbit_string.go:40-77 *)
Definition ContextButtonBit_name : string := "ContextButtonPlayPauseContextButtonVolumeUpContextButtonVolumeDownContextButtonNextTrackContextButtonPreviousTrackContextButtonNextAlbumContextButtonPreviousAlbumContextButtonStopContextButtonPlayResumeContextButtonPauseContextButtonMuteToggleContextButtonNextChapterContextButtonPreviousChapterContextButtonNextPlaylistContextButtonPreviousPlaylistContextButtonShuffleSettingAdvanceContextButtonRepeatSettingAdvanceContextButtonPowerOnContextButtonPowerOffContextButtonBacklightfor30SecondsContextButtonBeginFastForwardContextButtonBeginRewindContextButtonMenuContextButtonSelectContextButtonUpArrowContextButtonDownArrowContextButtonBacklightOff".
Definition ContextButtonBit_map : list (N * (nat * nat)) :=
  [(1%N, (0, 22)); (2%N, (22, 43)); (4%N, (43, 66)); (8%N, (66, 88)); (16%N, (88, 114)); (32%N, (114, 136)); (64%N, (136, 162));
   (128%N, (162, 179)); (256%N, (179, 202)); (512%N, (202, 220)); (1024%N, (220, 243)); (2048%N, (243, 267)); (4096%N, (267, 295));
   (8192%N, (295, 320)); (16384%N, (320, 349)); (32768%N, (349, 383)); (65536%N, (383, 416)); (131072%N, (416, 436));
   (262144%N, (436, 457)); (524288%N, (457, 491)); (1048576%N, (491, 520)); (2097152%N, (520, 544)); (4194304%N, (544, 561));
   (8388608%N, (561, 580)); (16777216%N, (580, 600)); (33554432%N, (600, 622)); (67108864%N, (622, 647))].
Fixpoint button_find (l : list (N * (nat * nat))) (i : N) : option (nat * nat) :=
  match l with
  | [] => None
  | (k, ab) :: l' => if (k =? i)%N then Some ab else button_find l' i
  end.
Definition ContextButtonBit_String (i : N) : outcome string :=
  match button_find ContextButtonBit_map i with
  | Some (a, b) => str_slice ContextButtonBit_name a b
  | None => Ret ("ContextButtonBit(" ++ FormatInt i ++ ")")
  end.

(** ** lingo-dispremote/infotype_string.go:28-49 *)
Definition InfoType_name_0 : string := "InfoTypeTrackPositionMsInfoTypeTrackIndexInfoTypeChapterIndexInfoTypePlayStatusInfoTypeVolumeInfoTypePowerInfoTypeEqualizerInfoTypeShuffleInfoTypeRepeatInfoTypeDateTime".
Definition InfoType_name_1 : string := "InfoTypeBacklightInfoTypeHoldSwitchInfoTypeSoundCheckInfoTypeAudiobookSpeedInfoTypeTrackPositionSecInfoTypeVolume2".
Definition InfoType_index_0 : list nat := [0; 23; 41; 61; 79; 93; 106; 123; 138; 152; 168].
Definition InfoType_index_1 : list nat := [0; 17; 35; 53; 75; 99; 114].
Definition InfoType_String (i : N) : outcome string :=
  if (i <=? 9)%N then name_at InfoType_name_0 InfoType_index_0 i
  else if ((11 <=? i)%N && (i <=? 16)%N)%bool then name_at InfoType_name_1 InfoType_index_1 (i - 11)
  else Ret ("InfoType(" ++ FormatInt i ++ ")").

(** ** lingo-dispremote/playstatustype_string.go:19-28 *)
Definition PlayStatusType_name : string := "PlayStatusStoppedPlayStatusPlayingPlayStatusPausedPlayStatusFFPlayStatusREWPlayStatusEndFFREW".
Definition PlayStatusType_index : list nat := [0; 17; 34; 50; 62; 75; 93].
Definition PlayStatusType_String (i : N) : outcome string :=
  if (N.of_nat (List.length PlayStatusType_index) - 1 <=? i)%N then Ret ("PlayStatusType(" ++ FormatInt i ++ ")")
  else name_at PlayStatusType_name PlayStatusType_index i.

(** ** lingo-dispremote/trackinfotype_string.go:22-31 *)
Definition TrackInfoType_name : string := "TrackInfoTypeCapsTrackInfoTypeChapterTimeNameTrackInfoTypeArtistTrackInfoTypeAlbumTrackInfoTypeGenreTrackInfoTypeTrackTrackInfoTypeComposerTrackInfoTypeLyricsTrackInfoTypeArtworkCount".
Definition TrackInfoType_index : list nat := [0; 17; 45; 64; 82; 100; 118; 139; 158; 183].
Definition TrackInfoType_String (i : N) : outcome string :=
  if (N.of_nat (List.length TrackInfoType_index) - 1 <=? i)%N then Ret ("TrackInfoType(" ++ FormatInt i ++ ")")
  else name_at TrackInfoType_name TrackInfoType_index i.

(** ** Masks *)

(** The loop of general.go:236-241 and simpleremote.go:108-113: [n] rounds from [i]. *)
Fixpoint mask_labels (bitString : N -> outcome string) (m : N) (i : N) (n : nat) : outcome (list string) :=
  match n with
  | O => Ret []
  | S n' => let bit := (N.shiftl 1 i mod 2 ^ 32)%N in
            if (N.land m bit =? 0)%N then mask_labels bitString m (i + 1) n'
            else do s <- bitString bit; do l <- mask_labels bitString m (i + 1) n'; Ret (s :: l)
  end.

(** lingo-general/general.go:234-243. *)
Definition LingoMask_String (m : N) : outcome string :=
  do labels <- mask_labels LingoBit_String m 0 32; Ret (Join " | " labels).
(** lingo-simpleremote/simpleremote.go:106-115. *)
Definition ContextButtonMask_String (m : N) : outcome string :=
  do labels <- mask_labels ContextButtonBit_String m 0 32; Ret (Join " | " labels).

(** ** Transactions *)

(** cmd.go:46-48 [%#04x] of a uint16. *)
Definition Transaction_String (tr : N) : string := fmt_hex0 4 tr.

(** fmt's %#x on a string: the hex form of its bytes. *)
Fixpoint string_hex (s : string) : string :=
  match s with
  | "" => ""
  | String c s' => hex_digits 2 (N_of_ascii c) ++ string_hex s'
  end.
(** cmd.go:42-44: the argument is a Stringer, so fmt's [%#04x] formats the string it gives; the
    text is longer than the width. *)
Definition Transaction_GoString (tr : N) : string := "0x" ++ string_hex (Transaction_String tr).

(** ** Log lines: cmd/ipod/formatter.go *)

(** logrus levels: panic 0, fatal 1, error 2, warning 3, info 4, debug 5, trace 6 (logrus). *)
Definition Level_String (l : N) : string :=
  match l with
  | 0 => "panic" | 1 => "fatal" | 2 => "error" | 3 => "warning" | 4 => "info" | 5 => "debug" | 6 => "trace"
  | _ => "unknown"
  end%N.

(** strings.ToUpper on ASCII, all it is used for. *)
Definition upper_char (c : ascii) : ascii :=
  let n := N_of_ascii c in if ((97 <=? n)%N && (n <=? 122)%N)%bool then ascii_of_N (n - 32) else c.
Fixpoint ToUpper (s : string) : string :=
  match s with "" => "" | String c s' => String (upper_char c) (ToUpper s') end.

(** sort.Strings: any sorting of distinct keys gives the same; modelled by insertion. *)
Fixpoint insert_key (k : string) (l : list string) : list string :=
  match l with
  | [] => [k]
  | x :: l' => if String.leb k x then k :: l else x :: insert_key k l'
  end.
Fixpoint sort_keys (l : list string) : list string :=
  match l with [] => [] | k :: l' => insert_key k (sort_keys l') end.

(** fmt's verbs: %0wd of an integer. *)
Fixpoint zeros (n : nat) : string := match n with O => "" | S n' => String "0" (zeros n') end.
Definition fmt_dec0 (w : nat) (z : Z) : string :=
  let d := FormatInt (Z.to_N (Z.abs z)) in
  if (z <? 0)%Z then "-" ++ zeros (w - 1 - String.length d) ++ d else zeros (w - String.length d) ++ d.
Fixpoint spaces (n : nat) : string := match n with O => "" | S n' => String " " (spaces n') end.

(** A log entry: level, time since the start in nanoseconds, message, and the fields in the order
    in which the map is traversed. *)
Record log_entry (V : Type) := mkEntry {
  le_Level : N; le_Time : Z; le_Message : string; le_Data : list (string * V)
}.
Arguments mkEntry {V}. Arguments le_Level {V}. Arguments le_Time {V}. Arguments le_Message {V}. Arguments le_Data {V}.

Fixpoint data_get {V} (d : list (string * V)) (k : string) : option V :=
  match d with [] => None | (k', v) :: d' => if String.eqb k' k then Some v else data_get d' k end.

(** formatter.go:71-99 [print].  [runes] counts the runes of a text (utf8.RuneCountInString) and
    [text] is fmt's %v of a field (of nil for a key that is not in the map). *)
Definition escape : string := String "027" "[".
Definition paint (color : N) (s : string) : string := escape ++ FormatInt color ++ "m" ++ s ++ escape ++ "0m".
Definition level_color (l : N) : N :=
  (if l =? 5 then 37 else if l =? 3 then 33 else if (l =? 2) || (l =? 1) || (l =? 0) then 31 else 36)%N.
Definition print {V} (runes : string -> nat) (text : option V -> string) (colored : bool) (e : log_entry V) (keys : list string)
  : outcome string :=
  do levelText <- str_slice (ToUpper (Level_String (le_Level e))) 0 4;      (* 73 *)
  let ts := le_Time e in                                            (* 74 *)
  let tsText := fmt_dec0 4 (Z.quot ts 1000000000) ++ "."
                ++ fmt_dec0 6 (Z.quot (Z.rem ts 1000000000) 1000) in (* 75 *)
  let msg := le_Message e ++ spaces (44 - runes (le_Message e)) in
  let c := level_color (le_Level e) in                              (* 77-87 *)
  let head := if colored then paint c levelText ++ "[" ++ tsText ++ "] " ++ msg ++ " "     (* 88 *)
              else levelText ++ "[" ++ tsText ++ "] " ++ msg ++ " " in (* 94 *)
  Ret (head ++ String.concat ""
         (map (fun k => " " ++ (if colored then paint c k else k) ++ "=" ++ text (data_get (le_Data e) k)) keys)).

(** formatter.go:46-65 [Format]; the buffer of the entry is empty, as logrus hands it. *)
Definition Format {V} (runes : string -> nat) (text : option V -> string) (colored : bool) (e : log_entry V) : outcome string :=
  do s <- print runes text colored e (sort_keys (map fst (le_Data e)));
  Ret (s ++ String "010" "").
