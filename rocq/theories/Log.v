(** Model of what cmd/ipod logs: log.go, logFrame, logPacket, logCmd and dirPrefix of main.go, the
    report of general.go, the warnings of cmd.go:81-87 (the tool's logger is logrus's standard one,
    main.go:25), and the loops of main.go with their log output.

    Entries are at level info, warning or error, which logrus never drops here.  Not modelled: the
    dumps added at debug level (go-spew), and cmd.go:180, which goes to the logger of Go's library.
    The log written before a panic is modelled in LogKept.v. *)
From Coq Require Import Ascii.
From Verif Require Import Base GoTypes Types Payload Lingo Command Handlers Packet Hid Trace Server Text.
Local Open Scope string_scope.

(** ** Entries *)

(** Level, message, and the fields with their texts (%v). *)
Record log_rec := mkRec { lr_Level : N; lr_Message : string; lr_Data : list (string * string) }.

Definition ErrorLevel : N := 2.                                     (* logrus *)
Definition WarnLevel : N := 3.
Definition InfoLevel : N := 4.

(** %v of a *Transaction: fmt shows a nil one as <nil>. *)
Definition trx_text (t : option N) : string := match t with Some tr => Transaction_String tr | None => "<nil>" end.
(** %T of a payload. *)
Definition payload_T (p : option payload) : string :=
  match p with
  | None => "<nil>"
  | Some p => match payload_type p with Some t => "*" ++ type_name t | None => "ipod.UnknownPayload" end
  end.

(** log.go:10-14. *)
Definition FrameLogEntry (frame : bytes) : list (string * string) := [("len", FormatInt (len frame))].
(** log.go:16-25; the command is never nil here. *)
Definition CommandLogEntry (cmd : command) : list (string * string) :=
  [("id", id_String (cmd_id cmd)); ("trx", trx_text (cmd_trx cmd)); ("type", payload_T (cmd_payload cmd))].

(** The common end of main.go:293-330: WithError and Errorf, or Infof.  [errText] is err.Error(). *)
Definition log_with (errText : goerr -> string) (fields : list (string * string)) (err : option goerr) (msg : string) : log_rec :=
  match err with
  | Some e => mkRec ErrorLevel msg (fields ++ [("error", errText e)])
  | None => mkRec InfoLevel msg fields
  end.
Definition logFrame errText (frame : bytes) err msg := log_with errText (FrameLogEntry frame) err msg.      (* 293-304 *)
Definition logPacket errText (pkt : bytes) err msg := log_with errText [("len", FormatInt (len pkt))] err msg. (* 306-317 *)
Definition logCmd errText (cmd : command) err msg := log_with errText (CommandLogEntry cmd) err msg.        (* 319-330 *)

(** main.go:409-418. *)
Definition dirPrefix (dir : N) (text : string) : string :=
  if (dir =? DirIn)%N then "<< " ++ text else if (dir =? DirOut)%N then ">> " ++ text else "?? " ++ text.

(** cmd.go:81-87: the warning handleCmdID gives when it changes TrxEnabled from [before] to [after]. *)
Definition mode_log (before after : bool) : list log_rec :=
  if Bool.eqb before after then []
  else [mkRec WarnLevel (if after then "Enabling transaction support" else "Disabling transaction support") []].

(** cmd.go:126-130: TrxEnabled after handleCmdID in UnmarshalCmd. *)
Definition packet_mode (mode : bool) (pkt : bytes) : bool :=
  match unmarshalLingoCmdID pkt with
  | (Ok id, _) => handleCmdID mode id
  | (Err _, _) => mode
  end.

(** The log of main.go:348-360 and 455-466, TrxEnabled being [mode] at first.  ReadPacket gives no
    packet with an error. *)
Fixpoint packets_log (errText : goerr -> string) (dir : N) (mode : bool) (evs : list pkt_event) : list log_rec :=
  match evs with
  | [] => []
  | PktErr e :: evs' => logPacket errText [] (Some e) (dirPrefix dir "PACKET") :: packets_log errText dir mode evs'
  | PktCmd p c e :: evs' =>
      (logPacket errText p None (dirPrefix dir "PACKET")
       :: mode_log mode (packet_mode mode p)
       ++ logCmd errText c e (dirPrefix dir "CMD")
       :: packets_log errText dir (packet_mode mode p) evs')%list
  end.

(** ** The viewer *)

(** main.go:448-466 for one frame; a failed read gives no frame. *)
Definition view_log (errText : goerr -> string) (mode : bool) (v : view_entry) : list log_rec :=
  match vw_frame v with
  | inr e => [logFrame errText [] (Some e) (dirPrefix (vw_dir v) "FRAME")]
  | inl f => logFrame errText f None (dirPrefix (vw_dir v) "FRAME") :: packets_log errText (vw_dir v) mode (vw_packets v)
  end.
(** TrxEnabled after the packets of a frame: the loop of main.go:455-466 with cmd.go:130. *)
Definition events_mode (mode : bool) (evs : list pkt_event) : bool :=
  fold_left (fun m ev => match ev with PktErr _ => m | PktCmd p _ _ => packet_mode m p end) evs mode.
(** main.go:440-469: one serde for both directions. *)
Fixpoint views_log (errText : goerr -> string) (mode : bool) (vs : list view_entry) : list log_rec :=
  match vs with
  | [] => [mkRec WarnLevel "EOF" []]                                (* 468 *)
  | v :: vs' => (view_log errText mode v ++ views_log errText (events_mode mode (vw_packets v)) vs')%list
  end.
(** main.go:419-469, when it does not end in log.Fatal. *)
Definition dump_log (errText : goerr -> string) (vs : list view_entry) : list log_rec := views_log errText false vs.

(** ** The identification report: cmd/ipod/general.go:103-139 *)

(** lingo-general/general.go:485-489. *)
Definition AccCaps : list N := [1; 2; 4; 16; 512; 2048]%N.

(** %T of a token. *)
Definition token_T (t : token) : string :=
  match t with
  | TokNil => "<nil>"
  | TokIdentify _ _ _ => "*" ++ type_name general_FIDIdentifyToken
  | TokAccInfo _ _ => "*" ++ type_name general_FIDAccInfoToken
  | TokEAProtocol _ _ => "*" ++ type_name general_FIDEAProtocolToken
  | TokStruct t _ => "*" ++ type_name t
  | TokRaw _ => "[]uint8"
  end.

Definition newline : string := String "010" "".

(** general.go:114-118. *)
Fixpoint caps_text (mask : N) (caps : list N) : outcome string :=
  match caps with
  | [] => Ret ""
  | c :: caps' =>
      if (N.land mask c =? 0)%N then caps_text mask caps'
      else do s <- AccCapBit_String c; do r <- caps_text mask caps'; Ret ("Capability: " ++ s ++ newline ++ r)
  end.

(** general.go:106-137.  [sdump] is spew.Sdump. *)
Fixpoint tokens_text (sdump : option bytes -> string) (l : list token_value) : outcome string :=
  match l with
  | [] => Ret ""
  | v :: l' =>
      do body <- match tv_token v with
                 | TokStruct general_FIDAccCapsToken vs => caps_text (fu vs 0) AccCaps     (* 113-118 *)
                 | TokAccInfo ty value =>                                                  (* 119-121 *)
                     do key <- AccInfoType_String ty; Ret (key ++ ": " ++ sdump value ++ newline)
                 | _ => Ret ""                                                             (* 111, 123-135 *)
                 end;
      do r <- tokens_text sdump l';
      Ret ("* Token: " ++ token_T (tv_token v) ++ newline ++ body ++ r)                    (* 108 *)
  end.
Definition EndIDPS_report (sdump : option bytes -> string) (tokens : list token_value) : outcome string :=
  do s <- tokens_text sdump tokens; Ret ("Tokens:" ++ newline ++ s).

(** ** The server with its log *)

(** What the device logs when called, the tokens being those it holds: general.go:138 and 141-153,
    where [certLog] is the log of the PKCS#7 parser's result. *)
Definition call_log (sdump : option bytes -> string) (certLog : bytes -> list log_rec) (d : DevGeneral) (ev : event)
  : outcome (list log_rec) :=
  match ev with
  | Called (CEndIDPS _) => do s <- EndIDPS_report sdump (dg_tokens d); Ret [mkRec InfoLevel s []]
  | Called (CAccAuthCert cert) => Ret (certLog cert)
  | _ => Ret []
  end.
Fixpoint calls_log sdump certLog d (evs : list event) : outcome (list log_rec) :=
  match evs with
  | [] => Ret []
  | ev :: evs' => do a <- call_log sdump certLog d ev; do b <- calls_log sdump certLog d evs'; Ret (a ++ b)%list
  end.

(** main.go:362-366 with 398-400.  A command that makes the device log does not change its tokens. *)
Fixpoint handle_all_log sdump certLog (reg : registry) (clock : nat -> datetime) (cmds : list command) (h : hstate DevGeneral)
  : outcome (hstate DevGeneral * list log_rec) :=
  match cmds with
  | [] => Ret (h, [])
  | c :: cmds' =>
      do (h1, _) <- handlePacket reg clock DevGeneral_device c h;
      do l1 <- calls_log sdump certLog (h_dev h) (skipn (List.length (h_log h)) (h_log h1));
      let l2 := if (LingoID (cmd_id c) =? LingoSimpleRemoteID)%N
                then [mkRec WarnLevel "Lingo SimpleRemote is not supported yet" []] else [] in
      do (h2, l3) <- handle_all_log sdump certLog reg clock cmds' h1;
      Ret (h2, (l1 ++ l2 ++ l3)%list)
  end.

(** main.go:368-380. *)
Fixpoint write_replies_log {W} (errText : goerr -> string) (rt : bool) (tp : transport W) (mode : bool) (cmds : list command) (w : W)
  : io (bool * W * list log_rec) :=
  match cmds with
  | [] => done (mode, w, [])
  | c :: cmds' =>
      let l1 := logCmd errText c None ">> CMD" in                   (* 370 *)
      go (mode', res) <- Some (MarshalCmd rt mode c);               (* 372 *)
      let outPacket := match res with Ok b => b | Err _ => [] end in
      let l2 := logPacket errText outPacket (match res with Ok _ => None | Err e => Some e end) ">> PACKET" in (* 373 *)
      let '(outFrame, _) := WritePacket NewPacketWriter outPacket in (* 375-377 *)
      go (w', e) <- tp_WriteFrame tp w outFrame;                    (* 378 *)
      let l3 := logFrame errText outFrame e ">> FRAME" in           (* 379 *)
      go (mode2, w2, l) <- write_replies_log errText rt tp mode' cmds' w';
      done (mode2, w2, (l1 :: mode_log mode mode' ++ l2 :: l3 :: l)%list)   (* cmd.go:97 *)
  end.

(** main.go:340-380. *)
Definition process_frame_log {W} errText sdump certLog (rt : bool) (reg : registry) (clock : nat -> datetime)
  (tp : transport W) (st : server DevGeneral) (w : W) (inFrame : slice) : io (server DevGeneral * W * list log_rec) :=
  let l0 := logFrame errText (vis inFrame) None "<< FRAME" in       (* 340 *)
  go (mode1, evs) <- frame_packets rt reg (sv_mode st) inFrame;
  go (h1, l2) <- Some (handle_all_log sdump certLog reg clock (inCmds evs) (sv_h st));
  go (mode2, w', l3) <- write_replies_log errText rt tp mode1 (outCmds (h_log (sv_h st)) (h_log h1)) w;
  done (mkServer mode2 h1, w', (l0 :: packets_log errText DirIn (sv_mode st) evs ++ l2 ++ l3)%list).

(** main.go:332-384. *)
Fixpoint processFrames_log {W} (fuel : nat) errText sdump certLog (rt : bool) (reg : registry) (clock : nat -> datetime)
  (tp : transport W) (st : server DevGeneral) (w : W) : io (server DevGeneral * W * list log_rec) :=
  match fuel with
  | O => None
  | S fuel' =>
      go (w1, r) <- tp_ReadFrame tp w;                              (* 336 *)
      match r with
      | inr EOF => done (st, w1, [mkRec WarnLevel "EOF" []])        (* 337-339, 383 *)
      | inr e =>                                                    (* 340-343 *)
          go (st', w', l) <- processFrames_log fuel' errText sdump certLog rt reg clock tp st w1;
          done (st', w', logFrame errText [] (Some e) "<< FRAME" :: l)
      | inl inFrame =>
          go (st1, w2, l1) <- process_frame_log errText sdump certLog rt reg clock tp st w1 inFrame;
          go (st', w', l) <- processFrames_log fuel' errText sdump certLog rt reg clock tp st1 w2;
          done (st', w', (l1 ++ l)%list)
      end
  end.
