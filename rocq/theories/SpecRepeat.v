(** Specification of repeating a recorded session with the send command (C102). *)
From Verif Require Import Base Hid SpecHid Trace SpecTrace Server SpecServer SpecWire.

(** A device whose reads give whole reports: id, link control and at least one byte. *)
Definition reporting {S} (dev : io_rw S) : Prop :=
  forall s s' got, rw_read dev s maxRawSize = (s', (got, None)) -> 3 <= List.length got.

(** A server at the other end: it reads, one by one, what was written (then io.EOF), and its frames are
    recorded. *)
Definition listening (fuel : nat) (defs : list ReportDef) (spares : nat -> bytes)
  : transport ((wire * nat) * list bytes) :=
  recording (hid_transport fuel defs spares wire_read wire_write).
