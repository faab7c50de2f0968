(** Specification of the trace viewer, independent of its queue and loops. *)
From Verif Require Import Base GoTypes Types Payload Lingo Command SpecPayload SpecCommand
  Packet SpecPacket Hid SpecHid Trace SpecTrace Server SpecServer.

(** The report in a message, or the error of reading it. *)
Definition report_of (m : Msg) : Report + goerr := ReadReport (msg_Data m, None).

Definition of_dir (d : N) (l : list Msg) : list Msg := filter (fun m => (msg_Dir m =? d)%N) l.

(** [picks d l taken rest]: [taken] are the first messages of direction [d] in [l], [rest] is [l]
    without them. *)
Inductive picks (d : N) : list Msg -> list Msg -> list Msg -> Prop :=
| picks_none l : picks d l [] l
| picks_take m l t r : msg_Dir m = d -> picks d l t r -> picks d (m :: l) (m :: t) r
| picks_skip m l t r : msg_Dir m <> d -> picks d l t r -> picks d (m :: l) t (m :: r).

(** [next_frame defs l d x rest]: from messages [l], the next frame is read in the direction [d]
    of the first message, from the first messages of that direction up to one that ends a frame
    ([x] is the frame) or cannot be read ([x] is the error); the others are left. *)
Inductive next_frame (defs : list ReportDef) : list Msg -> N -> bytes + goerr -> list Msg -> Prop :=
| next_ok h l taken rest pre last f :
    picks (msg_Dir h) (h :: l) taken rest ->
    map report_of taken = map inl (pre ++ [last]) -> Forall (live defs) (pre ++ [last]) ->
    Forall (fun r => ~ ends r) pre -> ends last -> frame_of defs (pre ++ [last]) f ->
    next_frame defs (h :: l) (msg_Dir h) (inl f) rest
| next_error h l taken rest pre x e :
    picks (msg_Dir h) (h :: l) taken rest ->
    map report_of taken = map inl pre ++ [x] -> Forall (live defs) pre -> Forall (fun r => ~ ends r) pre ->
    match x with inr e' => e = e' | inl r => unknown defs r /\ e = errReportID end ->
    next_frame defs (h :: l) (msg_Dir h) (inr e) rest.

(** The messages of the first message's direction do not end a frame. *)
Definition unfinished (defs : list ReportDef) (l : list Msg) : Prop :=
  exists h l' rs, l = h :: l' /\ map report_of (of_dir (msg_Dir h) l) = map inl rs
    /\ Forall (live defs) rs /\ Forall (fun r => ~ ends r) rs.

(** The packets shown, with the commands decoded from them. *)
Definition shown (evs : list pkt_event) : list (bytes * command) :=
  flat_map (fun e => match e with PktCmd p c _ => [(p, c)] | PktErr _ => [] end) evs.

(** [shows rt defs spares n m l es rest]: viewing the messages [l] in mode [m], after [n] frames,
    gives the entries [es], and the messages [rest] are not viewed.  The bytes behind the n-th
    frame in memory are [spares n]. *)
Inductive shows (rt : bool) (defs : list ReportDef) (spares : nat -> bytes)
  : nat -> bool -> list Msg -> list view_entry -> list Msg -> Prop :=
| shows_end n m : shows rt defs spares n m [] [] []
| shows_stop n m h l :
    unfinished defs (h :: l) ->
    shows rt defs spares n m (h :: l) [] (filter (fun x => negb (msg_Dir x =? msg_Dir h)%N) l)
| shows_error n m l d e rest es left :
    next_frame defs l d (inr e) rest -> shows rt defs spares (S n) m rest es left ->
    shows rt defs spares n m l (mkView d (inr e) [] :: es) left
| shows_frame n m l d f rest ps cs evs es left :
    next_frame defs l d (inl f) rest -> holds (mkSlice f (spares n)) ps -> decodes rt m ps cs ->
    shown evs = combine ps cs -> List.length ps = List.length cs -> happens rt (spares n) m f evs ->
    shows rt defs spares (S n) (mode_after m (ids_of ps)) rest es left ->
    shows rt defs spares n m l (mkView d (inl f) evs :: es) left.

(** Messages that crash the viewer: some frame is a crashing one. *)
Inductive view_crashes (rt : bool) (defs : list ReportDef) (spares : nat -> bytes)
  : nat -> bool -> list Msg -> Prop :=
| view_crash_now n m l d f rest :
    next_frame defs l d (inl f) rest -> crashing_frame rt m (mkSlice f (spares n)) ->
    view_crashes rt defs spares n m l
| view_crash_error n m l d e rest :
    next_frame defs l d (inr e) rest -> view_crashes rt defs spares (S n) m rest ->
    view_crashes rt defs spares n m l
| view_crash_later n m l d f rest ps cs :
    next_frame defs l d (inl f) rest -> holds (mkSlice f (spares n)) ps -> decodes rt m ps cs ->
    view_crashes rt defs spares (S n) (mode_after m (ids_of ps)) rest ->
    view_crashes rt defs spares n m l.

(** The last message of direction [d] ends a frame or cannot be read. *)
Definition closed (defs : list ReportDef) (d : N) (l : list Msg) : Prop :=
  forall pre m, of_dir d l = pre ++ [m] ->
    match report_of m with inr _ => True | inl r => ends r \/ unknown defs r end.

(** [frames_read defs rs fs]: reading frame after frame from [rs], whose last item ends a frame
    or is an error, gives [fs]. *)
Inductive frames_read (defs : list ReportDef) : list (Report + goerr) -> list (bytes + goerr) -> Prop :=
| read_none : frames_read defs [] []
| read_ok pre last f rs fs :
    Forall (live defs) (pre ++ [last]) -> Forall (fun r => ~ ends r) pre -> ends last ->
    frame_of defs (pre ++ [last]) f -> frames_read defs rs fs ->
    frames_read defs (map inl (pre ++ [last]) ++ rs) (inl f :: fs)
| read_bad pre x e rs fs :
    Forall (live defs) pre -> Forall (fun r => ~ ends r) pre ->
    match x with inr e' => e = e' | inl r => unknown defs r /\ e = errReportID end ->
    frames_read defs rs fs -> frames_read defs (map inl pre ++ x :: rs) (inr e :: fs).

Definition frames_shown (d : N) (es : list view_entry) : list (bytes + goerr) :=
  map vw_frame (filter (fun e => (vw_dir e =? d)%N) es).

Definition received (m : Msg) : Msg * option goerr := (m, None).

(** The file holds exactly the messages [ms], all readable. *)
Definition trace_of (content : bytes) (fin : goerr) (ms : list Msg) : Prop :=
  forall k, read_msgs (List.length ms + k) (NewReader content fin) = map received ms ++ repeat (failed EOF) k.

(** The file does not: after the messages [ms] reading fails with [e], not at the end of the file. *)
Definition bad_trace (content : bytes) (fin : goerr) (ms : list Msg) (e : goerr) : Prop :=
  e <> EOF /\ exists m, read_msgs (S (List.length ms)) (NewReader content fin) = map received ms ++ [(m, Some e)].
