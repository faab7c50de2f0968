(** Specification of transports that carry alike (C118). *)
From Verif Require Import Base Packet SpecPacket Server SpecServer SpecPlug.

(** Two frames that are the same, or hold the same packets. *)
Definition frame_alike (f1 f2 : slice) : Prop := f1 = f2 \/ exists ps, holds f1 ps /\ holds f2 ps.

(** Two results of a read: such frames, or both io.EOF, or both another error. *)
Definition read_alike (x y : slice + goerr) : Prop :=
  match x, y with
  | inl f1, inl f2 => frame_alike f1 f2
  | inr e1, inr e2 => e1 = EOF <-> e2 = EOF
  | _, _ => False
  end.

(** [carry_alike R t1 t2]: as long as their states are related by [R], the transports deliver alike.  What a write
    returns is free. *)
Record carry_alike {W1 W2} (R : W1 -> W2 -> Prop) (t1 : transport W1) (t2 : transport W2) : Prop := mkCarry {
  ca_read w1 w2 : R w1 w2 -> compare (tp_ReadFrame t1 w1) (tp_ReadFrame t2 w2) (fun x y => R (fst x) (fst y) /\ read_alike (snd x) (snd y));
  ca_write w1 w2 f : R w1 w2 -> compare (tp_WriteFrame t1 w1 f) (tp_WriteFrame t2 w2 f) (fun x y => R (fst x) (fst y))
}.

(** A transport whose writes are carried out but reported as [verdict] says. *)
Definition reporting {W} (verdict : W -> bytes -> option goerr) (tp : transport W) : transport W :=
  mkTransport (tp_ReadFrame tp) (fun w f => go (w', _) <- tp_WriteFrame tp w f; done (w', verdict w f)).
