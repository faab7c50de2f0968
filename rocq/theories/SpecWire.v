(** Specification of what reaches the server and what leaves it, in frames and in HID reports. *)
From Verif Require Import Base Handlers SpecProtocol Packet SpecPacket Hid SpecHid Server SpecServer.

(** ** State *)

(** What the server's state is in the protocol machine: the mode of transaction numbers, the
    device's interface mode (1 is the extended one), the last number used, the clock readings. *)
Definition memory_of (st : server DevGeneral) : memory :=
  mkMemory (sv_mode st) (dg_uimode (h_dev (sv_h st)) =? 1)%N (h_trx (sv_h st)) (h_ticks (sv_h st)).

(** The machine at the start. *)
Definition fresh : memory := mkMemory false false 0 0.

(** ** Frames *)

(** [hears ins pss]: input given as frames and read errors up to the first io.EOF, and the packets
    of its frames. *)
Inductive hears : list (slice + goerr) -> list (list bytes) -> Prop :=
| hears_end : hears [] []
| hears_eof ins : hears (inr EOF :: ins) []
| hears_error e ins pss : e <> EOF -> hears ins pss -> hears (inr e :: ins) pss
| hears_frame fr ps ins pss : holds fr ps -> hears ins pss -> hears (inl fr :: ins) (ps :: pss).

(** ** Reports *)

(** A device with given input: the results of its reads, then io.EOF.  It records what is written,
    and every write succeeds. *)
Definition wire : Type := (list raw_read * list bytes)%type.
Definition wire_read (d : wire) : io (wire * raw_read) :=
  match fst d with
  | [] => done (d, ([], Some EOF))
  | x :: ins => done ((ins, snd d), x)
  end.
Definition wire_write (d : wire) (p : bytes) : outcome (wire * (nat * option goerr)) :=
  Ret ((fst d, snd d ++ [p]), (List.length p, None)).

(** The reports [rs] come in a row without ending a frame. *)
Definition pending (defs : list ReportDef) (rs : list Report) : Prop :=
  Forall (live defs) rs /\ Forall (fun r => ~ ends r) rs.

(** [arrives defs spares n reads pss]: the packets of the frames in a device's input, up to its
    first io.EOF; [n] frames were read before, and [spares i] are the bytes behind the i-th frame
    in memory.  A read error or a report of unknown id drops the frame begun. *)
Inductive arrives (defs : list ReportDef) (spares : nat -> bytes) : nat -> list raw_read -> list (list bytes) -> Prop :=
| arrives_end n reads rs :
    map ReadReport reads = map inl rs -> pending defs rs -> arrives defs spares n reads []
| arrives_eof n taken rest rs :
    map ReadReport taken = map inl rs ++ [inr EOF] -> pending defs rs -> arrives defs spares n (taken ++ rest) []
| arrives_error n taken rest rs x pss :
    map ReadReport taken = map inl rs ++ [x] -> pending defs rs ->
    match x with inr e => e <> EOF | inl r => unknown defs r end ->
    arrives defs spares (S n) rest pss -> arrives defs spares n (taken ++ rest) pss
| arrives_frame n taken rest rs last f ps pss :
    map ReadReport taken = map inl (rs ++ [last]) -> pending defs rs -> live defs last -> ends last ->
    frame_of defs (rs ++ [last]) f -> holds (mkSlice f (spares n)) ps ->
    arrives defs spares (S n) rest pss -> arrives defs spares n (taken ++ rest) (ps :: pss).

(** A report as one write. *)
Definition report_bytes (r : Report) : bytes := rep_ID r :: rep_LinkControl r :: rep_Data r.

(** [departs defs fs outs]: the frames [fs], cut into reports, are the writes [outs]; an empty frame
    has no reports. *)
Inductive departs (defs : list ReportDef) : list bytes -> list bytes -> Prop :=
| departs_end : departs defs [] []
| departs_empty fs outs : departs defs fs outs -> departs defs ([] :: fs) outs
| departs_frame f rs fs outs :
    segments defs true f rs -> departs defs fs outs -> departs defs (f :: fs) (map report_bytes rs ++ outs).

(** ** A proper accessory *)

(** [sends defs rs ps]: the reports [rs] carry one frame, which holds exactly the packets [ps]. *)
Definition sends (defs : list ReportDef) (rs : list Report) (ps : list bytes) : Prop :=
  exists pre last f, rs = pre ++ [last] /\ pending defs pre /\ live defs last /\ ends last
    /\ Forall (fun r => 1 <= List.length (rep_Data r) <= 1022) (pre ++ [last])
    /\ frame_of defs (pre ++ [last]) f /\ stream ps f.

(** ** Kinds of packets *)

(** Those that switch transaction numbers off or on: identification, in its three versions. *)
Definition switches (p : bytes) : Prop := exists c b, p = x00 :: c :: b /\ In c [x00; x13; x38].

(** Those with identification tokens. *)
Definition has_tokens (p : bytes) : Prop := exists b, p = x00 :: x39 :: b.

(** ** Comparing runs *)

(** Both runs go on for ever (or need more fuel), both crash, or both end with the same to be seen:
    the transport in the same state, and the same memory. *)
Definition same_run {W} (a b : io (server DevGeneral * W)) : Prop :=
  match a, b with
  | None, None => True
  | Some Panic, Some Panic => True
  | Some (Ret (s, w)), Some (Ret (s', w')) => w = w' /\ memory_of s = memory_of s'
  | _, _ => False
  end.
