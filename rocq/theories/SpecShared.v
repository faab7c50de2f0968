(** Specification of several servers in one process (C115). *)
From Verif Require Import Base Payload Handlers SpecHandlers SpecProtocol Server SpecPlug.

(** A device that does nothing another can see with the certificate it is given: [R] is what cannot be told
    apart. *)
Definition blind {S} (R : S -> S -> Prop) (d : DeviceGeneral S) : Prop :=
  alike none R d d /\ forall s t c c', R s t -> R (dev_AccAuthCert d s c) (dev_AccAuthCert d t c').

(** The server's own questions: GetDevAuthenticationInfo and GetAccSampleRateCaps. *)
Definition own_questions : list bytes := [[x00; x14]; [x0a; x02]].

(** Frames that are the same but for the number of a question of the server's own, or for the time told. *)
Definition frames_close (f1 f2 : bytes) : Prop :=
  f1 = f2
  \/ (exists q t1 t2, In q own_questions /\ List.length t1 = 2 /\ List.length t2 = 2 /\ f1 = frame_bytes (q ++ t1) /\ f2 = frame_bytes (q ++ t2))
  \/ (exists t d1 d2, List.length d1 = 6 /\ List.length d2 = 6
        /\ f1 = frame_bytes ([x03; x0d] ++ t ++ [x09] ++ d1) /\ f2 = frame_bytes ([x03; x0d] ++ t ++ [x09] ++ d2)).

(** Calls that are the same but for the certificate given. *)
Definition calls_close (c1 c2 : devcall) : Prop := c1 = c2 \/ exists a b, c1 = CAccAuthCert a /\ c2 = CAccAuthCert b.
