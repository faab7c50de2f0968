(** Specification of recording to a file that cannot be written (C125). *)
From Verif Require Import Base Hid Trace Server.

(** A device file used without the tracer. *)
Definition plain_read {D} (dev : io_rw D) (s : D) : io (D * raw_read) := done (rw_read dev s maxRawSize).
Definition plain_write {D} (dev : io_rw D) (s : D) (p : bytes) : outcome (D * (nat * option goerr)) := Ret (rw_write dev s p).

(** A file on a disk with room for [cap] bytes: what fits is written, and the write fails if something did not. *)
Definition disk (cap : nat) : io_write bytes := fun file p =>
  let fits := firstn (cap - List.length file) p in
  (file ++ fits, (List.length fits, if List.length fits =? List.length p then None else Some (ErrMsg "no space left on device"))).
