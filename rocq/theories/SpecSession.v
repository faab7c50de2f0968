(** Specification of whole sessions: crashes reproduced by a replay, sessions seen in the viewer. *)
From Verif Require Import Base GoTypes Types Payload Lingo Command Handlers Packet Hid SpecHid Trace SpecTrace
  Server SpecServer SpecPacket.

(** ** Up to a crash *)

(** [rounds rt reg clock g tp st w st' w']: the server gets from one state to the other by whole
    rounds of its loop: a frame is read and answered, or reading fails and the loop goes on. *)
Inductive rounds {S W} (rt : bool) (reg : registry) (clock : nat -> datetime) (g : DeviceGeneral S) (tp : transport W)
  : server S -> W -> server S -> W -> Prop :=
| rounds_none st w : rounds rt reg clock g tp st w st w
| rounds_error st w st1 w1 w2 e :
    rounds rt reg clock g tp st w st1 w1 -> tp_ReadFrame tp w1 = done (w2, inr e) -> e <> EOF ->
    rounds rt reg clock g tp st w st1 w2
| rounds_frame st w st1 w1 w2 fr st2 w3 :
    rounds rt reg clock g tp st w st1 w1 -> tp_ReadFrame tp w1 = done (w2, inl fr) ->
    process_frame rt reg clock g tp st1 w2 fr = done (st2, w3) ->
    rounds rt reg clock g tp st w st2 w3.

(** The server crashes on the frame it has just read; [w'] is the transport's state then. *)
Definition crashes_at {S W} (rt : bool) (reg : registry) (clock : nat -> datetime) (g : DeviceGeneral S) (tp : transport W)
  (h : hstate S) (w : W) (w' : W) : Prop :=
  exists st w1 fr, rounds rt reg clock g tp (mkServer false h) w st w1
    /\ tp_ReadFrame tp w1 = done (w', inl fr) /\ process_frame rt reg clock g tp st w' fr = Some Panic.

(** A device whose writes never claim more bytes than they were given (io.Writer's contract, also
    when they fail). *)
Definition counting {S} (dev : io_rw S) : Prop :=
  forall s p s' n e, rw_write dev s p = (s', (n, e)) -> n <= List.length p.

(** ** Sessions seen from outside *)

(** What happens in a session, in order. *)
Inductive happening := Received (x : bytes + goerr) | Sent (f : bytes).

(** A transport that notes the frames and errors read (other than the final io.EOF) and the frames
    written. *)
Definition watched {W} (tp : transport W) : transport (W * list happening) :=
  mkTransport
    (fun w => go (w', r) <- tp_ReadFrame tp (fst w);
              done ((w', snd w ++ match r with
                                  | inl fr => [Received (inl (vis fr))]
                                  | inr EOF => []
                                  | inr e => [Received (inr e)]
                                  end), r))
    (fun w f => go (w', e) <- tp_WriteFrame tp (fst w) f; done ((w', snd w ++ [Sent f]), e)).

(** A device that takes every write whole. *)
Definition obliging {S} (dev : io_rw S) : Prop :=
  forall s p, exists s', rw_write dev s p = (s', (List.length p, None)).

(** How a happening is shown: a frame received as it is, a frame sent with the padding of its last
    report. *)
Definition shown_as (defs : list ReportDef) (x : happening) (e : view_entry) : Prop :=
  match x with
  | Received r => vw_dir e = 0%N /\ vw_frame e = r
  | Sent f => vw_dir e = 1%N /\ exists f', padded defs f f' /\ vw_frame e = inl f'
  end.

(** Frames without a byte leave no report. *)
Definition visible (x : happening) : bool :=
  match x with Sent [] => false | _ => true end.

(** A frame sent is empty or a packet. *)
Definition readable (x : happening) : Prop :=
  match x with Sent f => f = [] \/ exists p, is_packet p f | Received _ => True end.
