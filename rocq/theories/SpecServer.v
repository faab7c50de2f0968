(** Specification of the server and of the trace viewer, independent of their loops. *)
From Verif Require Import Base GoTypes Types Payload Lingo Command SpecPayload SpecCommand Handlers SpecHandlers
  Packet SpecPacket Hid SpecHid Trace SpecTrace Server.

(** ** Packets of a received frame *)

(** Behind a start byte comes [d], whose header announces more than is there; the bytes [sp]
    behind the frame in memory are too few, or make the check sum right. *)
Definition overruns (sp d : bytes) : Prop :=
  exists h n t, d = h ++ t /\ header_for n h /\ 3 <= List.length d /\ (len t < n + 1)%N
    /\ ((len t + len sp < n + 1)%N
        \/ (sum_bytes (h ++ firstn (N.to_nat (n + 1)) (t ++ sp)) mod 256 = 0)%N).

(** [parses sp data ps rest]: reading [data] from the left, the packets [ps] are found, and [rest]
    is still to be read.  A start byte that begins no packet is skipped alone. *)
Inductive parses (sp : bytes) : bytes -> list bytes -> bytes -> Prop :=
| parses_here d : parses sp d [] d
| parses_packet f w p d ps r :
    filler f -> is_packet p w -> parses sp d ps r -> parses sp (f ++ w ++ d) (p :: ps) r
| parses_bad f d ps r :
    filler f -> (forall p w d', x55 :: d = w ++ d' -> ~ is_packet p w) -> ~ overruns sp d ->
    parses sp d ps r -> parses sp (f ++ x55 :: d) ps r.

(** The packets of a whole frame. *)
Definition holds (fr : slice) (ps : list bytes) : Prop :=
  exists r, parses (spare fr) (vis fr) ps r /\ filler r.

(** The ids at the front of packets. *)
Definition ids_of (ps : list bytes) : list N :=
  flat_map (fun p => match packet_id p with Some id => [id] | None => [] end) ps.

(** A packet whose decoding crashes in mode [e]; see C20. *)
Definition crashing_packet (rt e : bool) (p : bytes) : Prop :=
  exists id t pre body, packet_id p = Some id /\ In (id, t) std_registry
    /\ packet_body p = pre ++ body /\ List.length pre = (if e then 2 else 0) /\ crashing_body rt t body.

(** A frame that crashes a receiver in mode [m]: a packet crashes its decoding, or a packet is
    cut off and read beyond the frame. *)
Definition crashing_frame (rt m : bool) (fr : slice) : Prop :=
  exists ps r, parses (spare fr) (vis fr) ps r
    /\ ((exists before p, ps = before ++ [p] /\ crashing_packet rt (mode_after m (ids_of before)) p)
        \/ (exists f d, r = f ++ x55 :: d /\ filler f /\ overruns (spare fr) d)).

(** Decoding packets one after the other, in mode [m] at first; those that fail to decode give
    commands too. *)
Inductive decodes (rt : bool) (m : bool) : list bytes -> list command -> Prop :=
| decodes_nil : decodes rt m [] []
| decodes_snoc ps cs p c m' e :
    decodes rt m ps cs ->
    UnmarshalCmd rt std_registry (mode_after m (ids_of ps)) p = Ret (m', c, e) ->
    decodes rt m (ps ++ [p]) (cs ++ [c]).

(** [happens rt sp m d evs]: what comes of reading the frame [d] in mode [m], the bytes [sp] lying
    behind it: in order, every packet with its command and decoding error, and one error for every
    start byte that begins no packet: the frame is too short, or a check sum is wrong. *)
Inductive happens (rt : bool) (sp : bytes) : bool -> bytes -> list pkt_event -> Prop :=
| happens_end m f : filler f -> happens rt sp m f []
| happens_packet m f w p d m1 c e evs :
    filler f -> is_packet p w -> UnmarshalCmd rt std_registry m p = Ret (m1, c, e) ->
    happens rt sp m1 d evs -> happens rt sp m (f ++ w ++ d) (PktCmd p c e :: evs)
| happens_bad m f d e evs :
    filler f -> (forall p w d', x55 :: d = w ++ d' -> ~ is_packet p w) -> ~ overruns sp d ->
    e = (if Nat.ltb (List.length d) 3 then UnexpectedEOF else ErrMsg "invalid checksum") ->
    happens rt sp m d evs -> happens rt sp m (f ++ x55 :: d) (PktErr e :: evs).

(** ** Replies *)

(** [f] is the frame for reply [c] in mode [m]: what the packet writer makes of the reply's bytes,
    which is one packet if a packet can have that length (see C03, C04); or nothing if the reply
    cannot be marshalled. *)
Definition encoded (rt m : bool) (c : command) (f : bytes) : Prop :=
  (exists b, MarshalCmd rt m c = Ret (m, Ok b) /\ WritePacket [] b = (f, None)
             /\ f <> [] /\ (writable b -> is_packet b f))
  \/ (marshal_fails rt m c /\ f = []).

(** Writing frames one after the other, whatever errors that gives. *)
Fixpoint feed {W} (tp : transport W) (w : W) (fs : list bytes) : io W :=
  match fs with
  | [] => done w
  | f :: fs' => go (w', _) <- tp_WriteFrame tp w f; feed tp w' fs'
  end.

(** The server's answer to a frame: the packets are decoded to [cs], these are handled in order,
    and the commands written are encoded to [fs], all in the mode after the last packet. *)
Definition answers {S} (rt : bool) (clock : nat -> datetime) (dev : DeviceGeneral S)
  (st : server S) (fr : slice) (fs : list bytes) (st' : server S) : Prop :=
  exists ps cs evs,
    holds fr ps /\ decodes rt (sv_mode st) ps cs
    /\ does (serve (handlePacket std_registry clock dev) cs) (sv_h st) (sv_h st') tt evs
    /\ Forall2 (encoded rt (sv_mode st')) (written evs) fs
    /\ sv_mode st' = mode_after (sv_mode st) (ids_of ps).

(** States of the tool's own device that the server can be in. *)
Definition sound (st : server DevGeneral) : Prop := (dg_uimode (h_dev (sv_h st)) <= 1)%N.

(** ** Sessions *)

(** A transport with given input: frames and read errors, then io.EOF.  It records the frames
    written. *)
Definition script : transport (list (slice + goerr) * list bytes) :=
  mkTransport (fun w => match fst w with
                        | [] => done (w, inr EOF)
                        | x :: ins => done ((ins, snd w), x)
                        end)
              (fun w f => done ((fst w, snd w ++ [f]), None)).

(** [session rt clock st ins outs st']: the answers to a whole input, up to its first io.EOF;
    other read errors are passed over. *)
Inductive session (rt : bool) (clock : nat -> datetime)
  : server DevGeneral -> list (slice + goerr) -> list bytes -> server DevGeneral -> Prop :=
| session_end st : session rt clock st [] [] st
| session_eof st ins : session rt clock st (inr EOF :: ins) [] st
| session_error st e ins outs st' :
    e <> EOF -> session rt clock st ins outs st' -> session rt clock st (inr e :: ins) outs st'
| session_frame st fr ins fs st1 outs st' :
    answers rt clock DevGeneral_device st fr fs st1 -> session rt clock st1 ins outs st' ->
    session rt clock st (inl fr :: ins) (fs ++ outs) st'.

(** The input crashes the server: after some frames it meets a crashing one. *)
Inductive crashes (rt : bool) (clock : nat -> datetime) : server DevGeneral -> list (slice + goerr) -> Prop :=
| crashes_now st fr ins : crashing_frame rt (sv_mode st) fr -> crashes rt clock st (inl fr :: ins)
| crashes_error st e ins : e <> EOF -> crashes rt clock st ins -> crashes rt clock st (inr e :: ins)
| crashes_later st fr ins fs st1 :
    answers rt clock DevGeneral_device st fr fs st1 -> crashes rt clock st1 ins ->
    crashes rt clock st (inl fr :: ins).

(** A transport that also records the frames it is given. *)
Definition recording {W} (tp : transport W) : transport (W * list bytes) :=
  mkTransport (fun w => go (w', r) <- tp_ReadFrame tp (fst w); done ((w', snd w), r))
              (fun w f => go (w', e) <- tp_WriteFrame tp (fst w) f; done ((w', snd w ++ [f]), e)).

(** A device whose report reads never fail except by io.EOF, and never read nothing. *)
Definition clean {S} (dev : io_rw S) : Prop :=
  forall s s' got e, rw_read dev s maxRawSize = (s', (got, e)) -> e = Some EOF \/ (e = None /\ got <> []).

(** The server on a device, through a tracer that writes to a file, and recording its frames. *)
Definition traced {S} (fuel : nat) (defs : list ReportDef) (spares : nat -> bytes) (dev : io_rw S)
  : transport (((S * bytes) * nat) * list bytes) :=
  recording (hid_transport fuel defs spares (traced_read append_file dev) (tracer_Write append_file dev)).

(** The server on the replay of a trace. *)
Definition replayed (fuel : nat) (defs : list ReportDef) (spares : nat -> bytes)
  : transport ((Reader * nat) * list bytes) :=
  recording (hid_transport fuel defs spares replay_read discard).

(** ** The server on any transport *)

(** A run that ends at io.EOF: each frame read is answered before the next one is read. *)
Inductive serves {W} (rt : bool) (clock : nat -> datetime) (tp : transport W)
  : server DevGeneral -> W -> server DevGeneral -> W -> Prop :=
| serves_eof st w w' : tp_ReadFrame tp w = done (w', inr EOF) -> serves rt clock tp st w st w'
| serves_error st w w1 e st' w' :
    tp_ReadFrame tp w = done (w1, inr e) -> e <> EOF ->
    serves rt clock tp st w1 st' w' -> serves rt clock tp st w st' w'
| serves_frame st w w1 fr fs st1 w2 st' w' :
    tp_ReadFrame tp w = done (w1, inl fr) -> answers rt clock DevGeneral_device st fr fs st1 ->
    feed tp w1 fs = done w2 -> serves rt clock tp st1 w2 st' w' -> serves rt clock tp st w st' w'.

(** A run that ends in a crash: of the transport, or by a crashing frame. *)
Inductive serves_crash {W} (rt : bool) (clock : nat -> datetime) (tp : transport W)
  : server DevGeneral -> W -> Prop :=
| crash_read st w : tp_ReadFrame tp w = Some Panic -> serves_crash rt clock tp st w
| crash_frame st w w1 fr :
    tp_ReadFrame tp w = done (w1, inl fr) -> crashing_frame rt (sv_mode st) fr -> serves_crash rt clock tp st w
| crash_write st w w1 fr fs st1 :
    tp_ReadFrame tp w = done (w1, inl fr) -> answers rt clock DevGeneral_device st fr fs st1 ->
    feed tp w1 fs = Some Panic -> serves_crash rt clock tp st w
| crash_error st w w1 e :
    tp_ReadFrame tp w = done (w1, inr e) -> e <> EOF ->
    serves_crash rt clock tp st w1 -> serves_crash rt clock tp st w
| crash_later st w w1 fr fs st1 w2 :
    tp_ReadFrame tp w = done (w1, inl fr) -> answers rt clock DevGeneral_device st fr fs st1 ->
    feed tp w1 fs = done w2 -> serves_crash rt clock tp st1 w2 -> serves_crash rt clock tp st w.

(** A transport that does not crash, and whose writes end. *)
Definition sturdy {W} (tp : transport W) : Prop :=
  (forall w, tp_ReadFrame tp w <> Some Panic) /\ (forall w f, exists w' e, tp_WriteFrame tp w f = done (w', e)).

(** ** Noise *)

(** Input without effect: read errors other than io.EOF and frames without packets. *)
Definition noise (x : slice + goerr) : Prop :=
  match x with inl fr => holds fr [] | inr e => e <> EOF end.

(** [ins'] is [ins] without some noise. *)
Inductive thinned : list (slice + goerr) -> list (slice + goerr) -> Prop :=
| thinned_nil : thinned [] []
| thinned_keep x ins ins' : thinned ins ins' -> thinned (x :: ins) (x :: ins')
| thinned_drop x ins ins' : noise x -> thinned ins ins' -> thinned (x :: ins) ins'.

(** The server's result on a script: final state and frames written, or a crash. *)
Definition final {S W} (x : io (server S * (W * list bytes))) : io (server S * list bytes) :=
  go (st, w) <- x; done (st, snd w).

(** ** Replies that are read back *)

(** Payloads and transactions that survive the wire in mode [m]: those of a fixed size (other than
    ACKDataDropped) with or without a transaction; the sendable ones of variable size with a
    transaction exactly in transaction mode.  See C14, C15. *)
Definition survives (rt m : bool) (c : command) : Prop :=
  (forall x, cmd_trx c = Some x -> u16 x)
  /\ ((exists t n vs, cmd_payload c = Some (Pst t vs) /\ In (cmd_id c, t) std_registry /\ fixed_size t n
         /\ typed t vs /\ t <> general_ACKDataDropped)
      \/ (exists p t, cmd_payload c = Some p /\ payload_type p = Some t /\ In (cmd_id c, t) std_registry
            /\ sendable rt p /\ (cmd_trx c <> None <-> m = true))).

(** Requests handled one after the other, with the replies of each. *)
Inductive in_turn {S} (clock : nat -> datetime) (dev : DeviceGeneral S)
  : hstate S -> list command -> list (list command) -> hstate S -> Prop :=
| in_turn_nil h : in_turn clock dev h [] [] h
| in_turn_cons h c cs h1 u evs outs h' :
    does (handlePacket std_registry clock dev c) h h1 u evs -> in_turn clock dev h1 cs outs h' ->
    in_turn clock dev h (c :: cs) (written evs :: outs) h'.
