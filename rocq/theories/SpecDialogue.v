(** Specification of a dialogue over HID between an accessory that uses the library and the server (C99). *)
From Verif Require Import Base GoTypes Types Payload Lingo Command SpecPayload SpecCommand Handlers SpecHandlers
  Packet SpecPacket ClientPacket Hid SpecHid SpecRead.

(** A command the accessory may send, its numbers being on if [e] holds before: of a registered type,
    with contents that can be encoded, with a number exactly if numbers are on from it on, and of a
    length a packet can have. *)
Definition proper (rt e : bool) (c : command) : Prop :=
  (exists p t, cmd_payload c = Some p /\ payload_type p = Some t /\ In (cmd_id c, t) std_registry
     /\ (sendable rt p
         \/ exists vs n, p = Pst t vs /\ fixed_size t n /\ typed t vs /\ t <> general_ACKDataDropped))
  /\ (forall x, cmd_trx c = Some x -> u16 x)
  /\ numbered_properly (mode_after e [cmd_id c]) c
  /\ (forall b, MarshalCmd rt e c = Ret (mode_after e [cmd_id c], Ok b) -> writable b).

Fixpoint all_proper (rt e : bool) (cs : list command) : Prop :=
  match cs with
  | [] => True
  | c :: cs' => proper rt e c /\ all_proper rt (mode_after e [cmd_id c]) cs'
  end.

(** The accessory sends commands, one in a frame; [sents] are the reports written for each. *)
Inductive transmits (rt : bool) (defs : list ReportDef) : bool -> list command -> list (list bytes) -> Prop :=
| transmits_none e : transmits rt defs e [] []
| transmits_one e e' c b f sent cs sents :
    MarshalCmd rt e c = Ret (e', Ok b) -> WritePacket NewPacketWriter b = (f, None) ->
    WriteFrame (List.length f) defs raw_writer [] f = Some (Ret (sent, None)) ->
    transmits rt defs e' cs sents -> transmits rt defs e (c :: cs) (sent :: sents).

(** The accessory reads the frame [g]: it holds one packet, which is decoded to the reply [c]; of a text
    about a track it is only known that decoding fails.  The reply to tokens may have 256 bytes, which no
    packet can carry. *)
Definition comes_through (rt e tokens : bool) (c : command) (g : bytes) : Prop :=
  exists b, MarshalCmd rt e c = Ret (e, Ok b)
    /\ ((tokens = true /\ len b = 256%N)
        \/ (forall sp k, exists fr, read_n (1 + k) (mkSlice g sp) = Ret (fr, (b, None) :: repeat ([], Some EOF) k))
           /\ (text_info c -> exists c' x, UnmarshalCmd rt std_registry e b = Ret (e, c', Some x))
           /\ (~ text_info c -> UnmarshalCmd rt std_registry e b
                 = Ret (e, mkCmd (cmd_id c) (if e then cmd_trx c else None) (option_map arrives (cmd_payload c)), None))).

(** The frames of the replies, in order; replies without a wire form are missing. *)
Inductive heard (rt e tokens : bool) : list command -> list bytes -> Prop :=
| heard_none : heard rt e tokens [] []
| heard_lost c cs gs : unsendable c -> heard rt e tokens cs gs -> heard rt e tokens (c :: cs) gs
| heard_reply c cs g gs :
    ~ unsendable c -> comes_through rt e tokens c g -> heard rt e tokens cs gs -> heard rt e tokens (c :: cs) (g :: gs).

(** Reading the reports [outs] with the library's decoder, whatever it held and whatever follows, gives
    the frames of the replies. *)
Definition receives (rt e tokens : bool) (defs : list ReportDef) (replies : list command) (outs : list bytes) : Prop :=
  forall buf rest, exists got, heard rt e tokens replies got
    /\ read_frames (List.length got) defs buf (map ReadReport (as_reads outs) ++ rest) = Ret (rest, map inl got).

(** The same for every request in turn: [SetFIDTokenValues] is command 0x39. *)
Inductive listens (rt : bool) (defs : list ReportDef)
  : bool -> list command -> list (list command) -> list (list bytes) -> Prop :=
| listens_none e : listens rt defs e [] [] []
| listens_one e c cs replies more outs outss :
    receives rt (mode_after e [cmd_id c]) (cmd_id c =? 57)%N defs replies outs ->
    listens rt defs (mode_after e [cmd_id c]) cs more outss ->
    listens rt defs e (c :: cs) (replies :: more) (outs :: outss).
