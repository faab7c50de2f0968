(** Specification of the log a crash leaves behind (C98). *)
From Verif Require Import Base SpecText GoTypes Types Payload Lingo Command SpecPayload SpecCommand Packet SpecPacket Handlers SpecHandlers Hid Trace
  Server SpecServer Log SpecLog.
Local Open Scope string_scope.
Local Open Scope list_scope.

(** [breaks rt sp m d evs x]: reading the frame [d] in mode [m], the bytes [sp] lying behind it, gives
    the events [evs] and then crashes: decoding packet [p] if [x = Some p], else reading a packet that is
    cut off. *)
Inductive breaks (rt : bool) (sp : bytes) : bool -> bytes -> list pkt_event -> option bytes -> Prop :=
| breaks_beyond m f d : filler f -> overruns sp d -> breaks rt sp m (f ++ x55 :: d) [] None
| breaks_decoding m f w p d :
    filler f -> is_packet p w -> UnmarshalCmd rt std_registry m p = Panic -> breaks rt sp m (f ++ w ++ d) [] (Some p)
| breaks_packet m f w p d m1 c e evs x :
    filler f -> is_packet p w -> UnmarshalCmd rt std_registry m p = Ret (m1, c, e) ->
    breaks rt sp m1 d evs x -> breaks rt sp m (f ++ w ++ d) (PktCmd p c e :: evs) x
| breaks_bad m f d e evs x :
    filler f -> (forall p w d', x55 :: d = w ++ d' -> ~ is_packet p w) -> ~ overruns sp d ->
    e = (if Nat.ltb (List.length d) 3 then UnexpectedEOF else ErrMsg "invalid checksum") ->
    breaks rt sp m d evs x -> breaks rt sp m (f ++ x55 :: d) (PktErr e :: evs) x.

(** The log of a server that crashes: of every frame answered its whole log, as in [transcript]; then the
    entry of the frame that crashes it, those of the packets before the crash, and the entry of the packet
    whose decoding crashes. *)
Inductive cut_short {W} errText sdump certLog (rt : bool) (clock : nat -> datetime) (tp : transport W)
  : server DevGeneral -> W -> list log_rec -> Prop :=
| cut_here st w w1 fr r evs x l1 l2 :
    tp_ReadFrame tp w = done (w1, inl fr) -> sized_entry errText "<< FRAME" (len (vis fr)) None r ->
    breaks rt (spare fr) (sv_mode st) (vis fr) evs x -> packet_entries errText "<< " (sv_mode st) evs l1 ->
    match x with Some p => exists r2, sized_entry errText "<< PACKET" (len p) None r2 /\ l2 = [r2] | None => l2 = [] end ->
    cut_short errText sdump certLog rt clock tp st w (r :: l1 ++ l2)
| cut_error st w w1 e r rs :
    tp_ReadFrame tp w = done (w1, inr e) -> e <> EOF -> sized_entry errText "<< FRAME" 0 (Some e) r ->
    cut_short errText sdump certLog rt clock tp st w1 rs ->
    cut_short errText sdump certLog rt clock tp st w (r :: rs)
| cut_later st w w1 fr ps r evs l1 l2 devs l3 st1 w2 rs :
    tp_ReadFrame tp w = done (w1, inl fr) -> sized_entry errText "<< FRAME" (len (vis fr)) None r ->
    holds fr ps -> happens rt (spare fr) (sv_mode st) (vis fr) evs -> packet_entries errText "<< " (sv_mode st) evs l1 ->
    said sdump certLog (dg_tokens (h_dev (sv_h st))) (h_cert (sv_h st)) (inCmds evs) l2 ->
    does (serve (handlePacket std_registry clock DevGeneral_device) (inCmds evs)) (sv_h st) (sv_h st1) tt devs ->
    sv_mode st1 = mode_after (sv_mode st) (ids_of ps) ->
    sends errText rt tp (sv_mode st1) (written devs) w1 l3 w2 ->
    cut_short errText sdump certLog rt clock tp st1 w2 rs ->
    cut_short errText sdump certLog rt clock tp st w (r :: l1 ++ l2 ++ l3 ++ rs).

(** The log ends with a packet that was read without error: its decoding crashed. *)
Definition ends_with_packet (l : list log_rec) : Prop :=
  exists before r, l = before ++ [r] /\ lr_Message r = "<< PACKET" /\ lr_Level r = 4%N.
