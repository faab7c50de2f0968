(** Specification of the send mode, independent of its loops. *)
From Verif Require Import Base Hid Trace SpecTrace Server Send.

(** [to_send rs out]: of the results [rs] of reading a trace, [out] are the data to send: the
    messages received, cut to 1024 bytes, up to the first result that is an error or a received
    message of fewer than three bytes. *)
Inductive to_send : list (Msg * option goerr) -> list bytes -> Prop :=
| send_error m e rs : to_send ((m, Some e) :: rs) []
| send_other m rs out : msg_Dir m <> 0%N -> to_send rs out -> to_send ((m, None) :: rs) out
| send_short m rs : msg_Dir m = 0%N -> List.length (msg_Data m) < 3 -> to_send ((m, None) :: rs) []
| send_data m rs out :
    msg_Dir m = 0%N -> 3 <= List.length (msg_Data m) -> to_send rs out ->
    to_send ((m, None) :: rs) (firstn 1024 (msg_Data m) :: out).

(** What a file says is to be sent. *)
Definition sendable_of (content : bytes) (fin : goerr) (out : list bytes) : Prop :=
  exists k, to_send (read_msgs k (NewReader content fin)) out.

(** A device that also notes what is written to it. *)
Definition noting {D} (wd : D -> bytes -> outcome (D * (nat * option goerr))) (d : D * list bytes) (p : bytes)
  : outcome ((D * list bytes) * (nat * option goerr)) :=
  do r <- wd (fst d) p; let '(d', x) := r in Ret ((d', snd d ++ [p]), x).
Definition noting_read {D} (rd : D -> io (D * raw_read)) (d : D * list bytes) : io ((D * list bytes) * raw_read) :=
  go (d', x) <- rd (fst d); done ((d', snd d), x).

(** Writes that keep the contract of io.Writer. *)
Definition orderly {D} (wd : D -> bytes -> outcome (D * (nat * option goerr))) : Prop :=
  forall d p, exists d' n e, wd d p = Ret (d', (n, e)) /\ n <= List.length p.

(** A read that tells the end of the device: its error is io.EOF, whatever data it gave. *)
Definition ends_device (x : raw_read) : Prop := snd x = Some EOF.

(** [left d] bounds the reads the device still gives: each takes one, and writing gives no more. *)
Definition limited {D} (left : D -> nat) (rd : D -> io (D * raw_read)) (wd : D -> bytes -> outcome (D * (nat * option goerr))) : Prop :=
  (forall d d' x, rd d = done (d', x) -> left d' < left d)
  /\ (forall d p d' x, wd d p = Ret (d', x) -> left d' <= left d).
