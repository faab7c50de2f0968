(** Specification of what a trace tells of a device file that refuses writes (C123). *)
From Verif Require Import Base Hid Server Trace SpecRefuse.

(** The device file under the tracer, as a chooser. *)
Definition as_chooser {S} (dev : io_rw S) : chooser S := mkChooser (fun s => rw_read dev s maxRawSize) (rw_write dev).

(** It takes a write whole or answers with an error, and its counts are never too large. *)
Definition whole_or_error {S} (dev : io_rw S) : Prop :=
  (forall s s' b, rw_read dev s maxRawSize = (s', (b, None)) -> List.length b <= maxRawSize)
  /\ (forall s p s' n e, rw_write dev s p = (s', (n, e)) -> n <= List.length p /\ (e = None -> n = List.length p)).

(** What got across, as messages of a trace: reads with data and without an error, and reports that were taken. *)
Definition crossed (evs : list happened) : list Msg :=
  flat_map (fun e => match e with
                     | Read (b :: bs, None) => [mkMsg DirIn 0 (b :: bs)]
                     | Taken (p :: ps) => [mkMsg DirOut 0 (p :: ps)]
                     | _ => []
                     end) evs.
