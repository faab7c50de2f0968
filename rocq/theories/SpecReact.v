(** Specification of an accessory that reacts to what it is sent (C121). *)
From Verif Require Import Base Hid Server.

(** An accessory with a state of its own: what the next read gives, and what it does with a report sent to it. *)
Record accessory (D : Type) := mkAccessory {
  acc_sends : D -> D * raw_read;
  acc_gets : D -> bytes -> D
}.
Arguments mkAccessory {D}. Arguments acc_sends {D}. Arguments acc_gets {D}.

(** The device file it is behind: it accepts every write. *)
Definition acc_read {D} (a : accessory D) (d : D) : io (D * raw_read) := done (acc_sends a d).
Definition acc_write {D} (a : accessory D) (d : D) (p : bytes) : outcome (D * (nat * option goerr)) :=
  Ret (acc_gets a d p, (List.length p, None)).

(** What goes on between it and the server, in order. *)
Inductive passed := FromAcc (x : raw_read) | ToAcc (p : bytes).

Inductive exchange {D} (a : accessory D) : D -> list passed -> D -> Prop :=
| ex_end d : exchange a d [] d
| ex_read d evs d' : exchange a (fst (acc_sends a d)) evs d' -> exchange a d (FromAcc (snd (acc_sends a d)) :: evs) d'
| ex_write d p evs d' : exchange a (acc_gets a d p) evs d' -> exchange a d (ToAcc p :: evs) d'.

Definition sent (evs : list passed) : list raw_read := flat_map (fun e => match e with FromAcc x => [x] | ToAcc _ => [] end) evs.
Definition got (evs : list passed) : list bytes := flat_map (fun e => match e with ToAcc p => [p] | FromAcc _ => [] end) evs.
