(** Sessions all of whose replies are packets, told from the log or from what was received. *)
From Verif Require Import Base Text Packet SpecPacket Server SpecServer SpecWire SpecSession Log SpecLog.
From Coq Require Import Ascii String.
Local Open Scope string_scope.

(** A log without a packet of 256 bytes sent. *)
Definition no_256 (r : log_rec) : Prop := lr_Message r = ">> PACKET" -> field "len" r <> Some "256".

(** A frame received carries no identification tokens. *)
Definition tokenless (x : happening) : Prop :=
  match x with
  | Received (inl f) => forall sp ps, holds (mkSlice f sp) ps -> Forall (fun p => ~ has_tokens p) ps
  | _ => True
  end.

(** Reading the frame [f], with the bytes [sp] behind it in memory, a packet is met of which the frame has
    only a part, and the rest is looked for behind the frame (see [overruns]). *)
Definition cut_off (sp f : bytes) : Prop :=
  exists ps r d, parses sp f ps (r ++ x55 :: d) /\ filler r /\ overruns sp d.
