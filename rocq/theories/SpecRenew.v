(** Specification of a new start by an accessory (C111).  Bytes only. *)
From Verif Require Import Base SpecProtocol.

(** Start of identification and leaving the extended mode, with transaction number [t]; what each is
    answered.  A tool in the extended mode first announces that leaving takes 300 ms. *)
Definition start (t : bytes) : bytes := [x00; x38] ++ t.
Definition leave (t : bytes) : bytes := [x00; x06] ++ t.
Definition ok (t : bytes) (command : byte) : bytes := [x00; x02] ++ t ++ [x00; command].
Definition wait (t : bytes) : bytes := [x00; x02] ++ t ++ [x06; x06; x00; x00; x01; x2c].

(** What the two are answered, [e]: in the extended mode. *)
Definition start_frames (t : bytes) : list bytes := [frame_bytes (ok t x38)].
Definition leave_frames (e : bool) (t : bytes) : list bytes := (if e then [frame_bytes (wait t)] else []) ++ [frame_bytes (ok t x06)].

(** Identification without transaction numbers: masks of lingoes and options, and a device id, which is
    asked for authentication if it is not zero. *)
Definition identify_lingoes (masks device : bytes) : bytes := [x00; x13] ++ masks ++ device.
Definition asked (device : bytes) : list bytes := if forallb (Byte.eqb x00) device then [] else [[x00; x14]].

(** A clock as it is seen after it was looked at [k] times. *)
Definition later (k : nat) (clock : nat -> date) : nat -> date := fun n => clock (k + n).

(** The same memory, with [k] more looks at the clock. *)
Definition shift (k : nat) (m : memory) : memory := mkMemory (numbered m) (extended m) (last_number m) (k + readings m).

(** Memories that differ in the looks at the clock by [k], and in the count only if it is not in use. *)
Definition same_but (k : nat) (m m' : memory) : Prop :=
  numbered m' = numbered m /\ extended m' = extended m /\ readings m' = k + readings m
  /\ (numbered m = true -> last_number m' = last_number m).

(** The packet is a start of identification, proper or not. *)
Definition is_start (p : bytes) : Prop := exists b, p = x00 :: x38 :: b.

(** A frame in which identification is started properly, if at all, and by the first packet. *)
Definition orderly (ps : list bytes) : Prop :=
  match ps with
  | [] => True
  | p :: ps' => (forall x, p <> [x00; x38; x]) /\ Forall (fun q => ~ is_start q) ps'
  end.
