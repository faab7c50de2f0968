(** Model of the loops of cmd/ipod/main.go: the server [processFrames], the trace viewer
    [dumpTrace], and the HID transport over a device with state. *)
From Verif Require Import Base GoTypes Types Payload Lingo Command Handlers Packet Hid Trace.

(** ** Results of loops *)

(** Go code that may loop: [None] means out of fuel. *)
Definition io (A : Type) : Type := option (outcome A).

Definition io_bind {A B} (m : io A) (k : A -> io B) : io B :=
  match m with
  | None => None
  | Some Panic => Some Panic
  | Some (Ret a) => k a
  end.
Notation "'go' x <- m ; k" := (io_bind m (fun x => k))
  (at level 200, x pattern, m at level 100, k at level 200).

Definition done {A} (a : A) : io A := Some (Ret a).

(** ** The HID transport over a device *)

(** hid.go:88-120 [Decoder.ReadFrame] again, now with the raw report reader
    (report_transport.go:33-46) on a device with state: [rd] is the device's Read with the
    reader's buffer of 1024 bytes.  [fuel] bounds the number of reports. *)
Fixpoint ReadFrame_dev {D} (fuel : nat) (defs : list ReportDef) (rd : D -> io (D * raw_read))
  (buf : bytes) (d : D) : io (D * (bytes + goerr)) :=
  match fuel with
  | O => None
  | S fuel' =>
      go (d', got) <- rd d;                                         (* 93 *)
      match ReadReport got with
      | inr e => done (d', inr e)                                   (* 94-96 *)
      | inl report =>
          match Find defs (Z.of_N (b2n (rep_ID report))) with       (* 97 *)
          | inr e => done (d', inr e)                               (* 98-100 *)
          | inl reportDef =>
              let n := Z.min (Z.of_nat (List.length (rep_Data report))) (MaxPayload reportDef) in (* 102 *)
              if (n <? 0)%Z then Some Panic                         (* 103 *)
              else
                let reportData := firstn (Z.to_nat n) (rep_Data report) in
                let lc := b2n (rep_LinkControl report) in
                if (lc =? LinkControlDone)%N                        (* 105-108 *)
                then done (d', inl reportData)
                else if (lc =? LinkControlMoreToFollow)%N           (* 109-111 *)
                then ReadFrame_dev fuel' defs rd reportData d'
                else if (lc =? N.lor LinkControlContinue LinkControlMoreToFollow)%N (* 112-113 *)
                then ReadFrame_dev fuel' defs rd (buf ++ reportData) d'
                else if (lc =? LinkControlContinue)%N               (* 114-116 *)
                then done (d', inl (buf ++ reportData))
                else ReadFrame_dev fuel' defs rd buf d'             (* no case *)
          end
      end
  end.

(** The raw report writer (report_transport.go:60-67) on a device whose Write [wd] may panic, as
    a report writer of the encoder: the state is the device's, or [Panic] once it panicked. *)
Definition panicked : goerr := ErrMsg "panic".
Definition raw_Write {D} (wd : D -> bytes -> outcome (D * (nat * option goerr))) (o : outcome D) (p : bytes)
  : outcome D * (nat * option goerr) :=
  match (do d <- o; wd d p) with
  | Ret (d', r) => (Ret d', r)
  | Panic => (Panic, (0, Some panicked))
  end.
Definition dev_WriteReport {D} (wd : D -> bytes -> outcome (D * (nat * option goerr))) (o : outcome D) (r : Report)
  : outcome D * option goerr :=
  match WriteReport (raw_Write wd) o r with
  | Ret x => x
  | Panic => (Panic, Some panicked)
  end.

(** hid.go:34-69 [Encoder.WriteFrame] over a device.  The encoder sends at least one byte per
    report, so a frame needs no more reports than it has bytes; see C40 and [write_dev]. *)
Definition WriteFrame_dev {D} (defs : list ReportDef) (wd : D -> bytes -> outcome (D * (nat * option goerr)))
  (d : D) (data : bytes) : io (D * option goerr) :=
  go (o, e) <- WriteFrame (List.length data) defs (dev_WriteReport wd) (Ret d) data;
  go d' <- Some o; done (d', e).

(** transport.go:18-21 [FrameReadWriter]: reading gives a frame (a slice of the decoder's buffer,
    whose spare capacity holds arbitrary old bytes) or an error. *)
Record transport (W : Type) := mkTransport {
  tp_ReadFrame : W -> io (W * (slice + goerr));
  tp_WriteFrame : W -> bytes -> io (W * option goerr)
}.
Arguments mkTransport {W}. Arguments tp_ReadFrame {W}. Arguments tp_WriteFrame {W}.

(** hid.go:133-143 [NewTransport] over a device: the spare bytes behind the n-th frame read are
    [spares n], for any [spares]. *)
Definition hid_transport {D} (fuel : nat) (defs : list ReportDef) (spares : nat -> bytes)
  (rd : D -> io (D * raw_read)) (wd : D -> bytes -> outcome (D * (nat * option goerr)))
  : transport (D * nat) :=
  mkTransport
    (fun w => go (d', r) <- ReadFrame_dev fuel defs rd [] (fst w);
              done ((d', S (snd w)),
                    match r with inl f => inl (mkSlice f (spares (snd w))) | inr e => inr e end))
    (fun w frame => go (d', e) <- WriteFrame_dev defs wd (fst w) frame; done ((d', snd w), e)).

(** ** Packets of a frame *)

(** What the loops on a frame's packets log. *)
Inductive pkt_event :=
| PktErr (e : goerr)
| PktCmd (pkt : bytes) (c : command) (e : option goerr).

(** main.go:345-360 and 453-466: read packets up to io.EOF and decode them, the serde's mode being
    carried along.  [fuel] bounds the number of ReadPacket calls. *)
Fixpoint read_packets (fuel : nat) (rt : bool) (reg : registry) (mode : bool) (frame : slice)
  : io (bool * list pkt_event) :=
  match fuel with
  | O => None
  | S fuel' =>
      go (frame', pkt, err) <- Some (ReadPacket frame);             (* 348 *)
      match err with
      | Some EOF => done (mode, [])                                 (* 349-351 *)
      | Some e =>
          go (mode', evs) <- read_packets fuel' rt reg mode frame'; (* 353-355 *)
          done (mode', PktErr e :: evs)
      | None =>
          go (mode1, cmd, uerr) <- Some (UnmarshalCmd rt reg mode pkt);   (* 357 *)
          go (mode', evs) <- read_packets fuel' rt reg mode1 frame';
          done (mode', PktCmd pkt cmd uerr :: evs)                  (* 359 *)
      end
  end.

(** Every call but the last consumes a start byte; so the fuel never runs out, see [frame_packets_run]. *)
Definition frame_packets (rt : bool) (reg : registry) (mode : bool) (frame : slice)
  : io (bool * list pkt_event) :=
  read_packets (S (List.length (vis frame))) rt reg mode (NewPacketReader frame).

(** inCmdBuf.Commands: a command is kept even when it could not be decoded. *)
Definition inCmds (evs : list pkt_event) : list command :=
  flat_map (fun e => match e with PktCmd _ c _ => [c] | PktErr _ => [] end) evs.

(** ** The server *)

(** main.go:333 and the state behind the handlers. *)
Record server (S : Type) := mkServer { sv_mode : bool; sv_h : hstate S }.
Arguments mkServer {S}. Arguments sv_mode {S}. Arguments sv_h {S}.

(** main.go:362-366. *)
Fixpoint handle_all {S} (reg : registry) (clock : nat -> datetime) (dev : DeviceGeneral S)
  (cmds : list command) : act S unit :=
  match cmds with
  | [] => ret tt
  | c :: cmds' => run _ <- handlePacket reg clock dev c; handle_all reg clock dev cmds'
  end.

(** outCmdBuf.Commands: the commands written while going from one log to a later one. *)
Definition outCmds (before after : list event) : list command :=
  flat_map (fun e => match e with Wrote c => [c] | Called _ => [] end) (skipn (List.length before) after).

(** main.go:368-380; errors of WritePacket are dropped, those of WriteFrame only logged. *)
Fixpoint write_replies {W} (rt : bool) (tp : transport W) (mode : bool) (cmds : list command) (w : W)
  : io (bool * W) :=
  match cmds with
  | [] => done (mode, w)
  | c :: cmds' =>
      go (mode', res) <- Some (MarshalCmd rt mode c);               (* 372 *)
      let outPacket := match res with Ok b => b | Err _ => [] end in
      let '(outFrame, _) := WritePacket NewPacketWriter outPacket in (* 375-377 *)
      go (w', _) <- tp_WriteFrame tp w outFrame;                    (* 378 *)
      write_replies rt tp mode' cmds' w'
  end.

(** main.go:345-380: one received frame. *)
Definition process_frame {S W} (rt : bool) (reg : registry) (clock : nat -> datetime) (dev : DeviceGeneral S)
  (tp : transport W) (st : server S) (w : W) (inFrame : slice) : io (server S * W) :=
  go (mode1, evs) <- frame_packets rt reg (sv_mode st) inFrame;
  go (h1, _) <- Some (handle_all reg clock dev (inCmds evs) (sv_h st));
  go (mode2, w') <- write_replies rt tp mode1 (outCmds (h_log (sv_h st)) (h_log h1)) w;
  done (mkServer mode2 h1, w').

(** main.go:332-384 [processFrames]; [fuel] bounds the number of ReadFrame calls. *)
Fixpoint processFrames_loop {S W} (fuel : nat) (rt : bool) (reg : registry) (clock : nat -> datetime)
  (dev : DeviceGeneral S) (tp : transport W) (st : server S) (w : W) : io (server S * W) :=
  match fuel with
  | O => None
  | S fuel' =>
      go (w1, r) <- tp_ReadFrame tp w;                              (* 336 *)
      match r with
      | inr EOF => done (st, w1)                                    (* 337-339 *)
      | inr _ => processFrames_loop fuel' rt reg clock dev tp st w1 (* 341-343 *)
      | inl inFrame =>
          go (st', w2) <- process_frame rt reg clock dev tp st w1 inFrame;
          processFrames_loop fuel' rt reg clock dev tp st' w2
      end
  end.

Definition processFrames {S W} (fuel : nat) (rt : bool) (reg : registry) (clock : nat -> datetime)
  (dev : DeviceGeneral S) (tp : transport W) (h : hstate S) (w : W) : io (server S * W) :=
  processFrames_loop fuel rt reg clock dev tp (mkServer false h) w. (* 333 *)

(** ** Modes of the tool *)

(** main.go:122-164 [serve] with -w: the tracer between the device and the transport. *)
Definition traced_read {D T} (tw : io_write T) (dev : io_rw D) (st : D * T) : io ((D * T) * raw_read) :=
  Some (tracer_Read tw dev st maxRawSize).

(** main.go:166-190 [replay]: reads come from the trace, writes are discarded. *)
Definition replay_read (r : Reader) : io (Reader * raw_read) :=
  match dir_Read DirIn r maxRawSize with
  | None => None
  | Some x => done x
  end.
Definition discard {D} (d : D) (p : bytes) : outcome (D * (nat * option goerr)) :=
  Ret (d, (List.length p, None)).

(** ** The trace viewer *)

(** main.go:420-431: read all messages into a queue; [inr e]: log.Fatal.  [fuel] bounds the number
    of messages. *)
Fixpoint load_trace (fuel : nat) (r : Reader) (q : Queue) : io (Queue + goerr) :=
  match fuel with
  | O => None
  | S fuel' =>
      let '(r', m, err) := ReadMsg r (mkMsg 0 0 []) in              (* 423 *)
      match err with
      | Some EOF => done (inl q)                                    (* 424-426 *)
      | Some e => done (inr e)                                      (* 427-429 *)
      | None => match Enqueue q m with                              (* 430 *)
                | (q', Ret _) => load_trace fuel' r' q'
                | (_, Panic) => Some Panic
                end
      end
  end.

(** What the viewer logs for one frame. *)
Record view_entry := mkView { vw_dir : N; vw_frame : bytes + goerr; vw_packets : list pkt_event }.

(** main.go:433-467.  The spare bytes behind the n-th frame are [spares n].  [fuel] bounds the
    number of frames. *)
Fixpoint view_loop (fuel : nat) (rt : bool) (reg : registry) (defs : list ReportDef) (spares : nat -> bytes)
  (n : nat) (mode : bool) (q : Queue) : io (Queue * list view_entry) :=
  match fuel with
  | O => None
  | S fuel' =>
      match Head q with                                             (* 436-439 *)
      | None => done (q, [])
      | Some head =>
          let dir := msg_Dir head in                                (* 440 *)
          let rd := fun q => let '(q', o) := queue_Read q dir maxRawSize in
                             go x <- Some o; done (q', x) in        (* 441-442 *)
          go (q', r) <- ReadFrame_dev (S (List.length (q_all q))) defs rd [] q;  (* 444 *)
          match r with
          | inr EOF => done (q', [])                                (* 445-447 *)
          | inr e =>                                                (* 448-451 *)
              go (q'', es) <- view_loop fuel' rt reg defs spares (S n) mode q';
              done (q'', mkView dir (inr e) [] :: es)
          | inl frame =>
              go (mode', evs) <- frame_packets rt reg mode (mkSlice frame (spares n)); (* 453-466 *)
              go (q'', es) <- view_loop fuel' rt reg defs spares (S n) mode' q';
              done (q'', mkView dir (inl frame) evs :: es)
          end
      end
  end.

(** main.go:419-469 [dumpTrace]; [inr e]: the process ends with log.Fatal. *)
Definition dumpTrace (rt : bool) (reg : registry) (defs : list ReportDef) (spares : nat -> bytes) (r : Reader)
  : io ((Queue * list view_entry) + goerr) :=
  go x <- load_trace (S (List.length (rd_tokens r))) r NewQueue;
  match x with
  | inr e => done (inr e)
  | inl q => go v <- view_loop (S (List.length (q_all q))) rt reg defs spares 0 false q; done (inl v)
  end.
