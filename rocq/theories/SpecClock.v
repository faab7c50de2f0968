(** Specification of what the clock can change (C120). *)
From Verif Require Import Base Lingo SpecCommand Handlers SpecProtocol.

(** A date and time as it is told: two bytes for the year, one each for month, day, hour and minute. *)
Definition date_bytes (d : datetime) : bytes :=
  let '(y, mo, da, ho, mi) := d in
  [n2b (y / 256); n2b y; n2b mo; n2b da; n2b ho; n2b mi]%N.

(** The frame that tells it: RetiPodStateInfo of kind 9, behind the number [t] of the question, if it had one. *)
Definition date_frame (t : bytes) (d : datetime) : bytes := frame_bytes ([x03; x0d] ++ t ++ [x09] ++ date_bytes d).

(** The frames sent under two clocks, while the readings from the [k]-th up to but not including the [k']-th are
    taken: the same frames, but for those that tell a reading; each reading is told once, in order. *)
Inductive frames_told (c1 c2 : nat -> datetime) : nat -> list bytes -> list bytes -> nat -> Prop :=
| ft_end k : frames_told c1 c2 k [] [] k
| ft_same k f fs1 fs2 k' : frames_told c1 c2 k fs1 fs2 k' -> frames_told c1 c2 k (f :: fs1) (f :: fs2) k'
| ft_date k t fs1 fs2 k' : t = [] \/ List.length t = 2 -> frames_told c1 c2 (k + 1) fs1 fs2 k' ->
    frames_told c1 c2 k (date_frame t (c1 k) :: fs1) (date_frame t (c2 k) :: fs2) k'.

(** A packet that may ask for the date: GetiPodStateInfo with the kind 9, with or without a number in front. *)
Definition may_ask_date (p : bytes) : Prop :=
  exists body, p = x03 :: x0c :: body /\ (nth_error body 0 = Some x09 \/ nth_error body 2 = Some x09).
