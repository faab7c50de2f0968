(** Specification of requests that are sent again (C105).  Bytes only. *)
From Verif Require Import Base SpecProtocol SpecWire.

(** Packets that the tool can take differently the second time: entering and leaving the extended mode,
    a section of the certificate, the end of identification, the question for the state of the player. *)
Definition delicate (p : bytes) : Prop :=
  exists a c b, p = a :: c :: b /\ In [a; c] [[x00; x05]; [x00; x06]; [x00; x15]; [x00; x3b]; [x03; x0c]].

(** A frame to be sent again: one packet that is not delicate, or several such packets of which none
    switches transaction numbers on or off. *)
Definition repeatable (ps : list bytes) : Prop :=
  Forall (fun p => ~ delicate p) ps /\ (List.length ps <= 1 \/ Forall (fun p => ~ switches p) ps).
