(** Client programs driving the packet API, used by the theorem statements. *)
From Verif Require Import Base Packet.

(** Call [ReadPacket] [n] times, collecting (payload, error) of every call. *)
Fixpoint read_n (n : nat) (fr : slice) : outcome (slice * list (bytes * option goerr)) :=
  match n with
  | 0 => Ret (fr, [])
  | S n' =>
      do r <- ReadPacket fr;
      let '(fr1, p, e) := r in
      do r2 <- read_n n' fr1;
      let '(fr2, rs) := r2 in
      Ret (fr2, (p, e) :: rs)
  end.

(** Write all payloads with one writer, ignoring errors; [Bytes()] (packet.go:109-111)
    is the writer state itself. *)
Fixpoint write_all (w : bytes) (ps : list bytes) : bytes :=
  match ps with
  | [] => w
  | p :: ps' => write_all (fst (WritePacket w p)) ps'
  end.

(** Calls on a CRC8 hash object. *)
Inductive crc_op := OpWrite (p : bytes) | OpSum (inp : bytes) | OpSum8 | OpReset | OpSize | OpBlockSize.
Inductive crc_out := OutWrite (n : N) (e : option goerr) | OutSum (l : bytes) | OutSum8 (n : N) | OutReset | OutSize (n : N).

Fixpoint crc_run (c : crc8) (ops : list crc_op) : list crc_out :=
  match ops with
  | [] => []
  | OpWrite p :: ops' =>
      let '(c', (n, e)) := crc8_write c p in OutWrite n e :: crc_run c' ops'
  | OpSum i :: ops' => OutSum (crc8_sum c i) :: crc_run c ops'
  | OpSum8 :: ops' => OutSum8 (crc8_sum8 c) :: crc_run c ops'
  | OpReset :: ops' => OutReset :: crc_run (crc8_reset c) ops'
  | OpSize :: ops' => OutSize crc8_size :: crc_run c ops'
  | OpBlockSize :: ops' => OutSize crc8_blocksize :: crc_run c ops'
  end.

(** What the outputs should be, given only the bytes written since the last reset.  The size is the number of bytes
    a sum adds; any number of bytes can be written at once, so a block is one byte. *)
Fixpoint crc_spec (sofar : bytes) (ops : list crc_op) : list crc_out :=
  match ops with
  | [] => []
  | OpWrite p :: ops' => OutWrite (len p) None :: crc_spec (sofar ++ p) ops'
  | OpSum i :: ops' => OutSum (i ++ [n2b (checksum sofar)]) :: crc_spec sofar ops'
  | OpSum8 :: ops' => OutSum8 (checksum sofar) :: crc_spec sofar ops'
  | OpReset :: ops' => OutReset :: crc_spec [] ops'
  | OpSize :: ops' => OutSize (len [n2b (checksum sofar)]) :: crc_spec sofar ops'
  | OpBlockSize :: ops' => OutSize 1 :: crc_spec sofar ops'
  end.
