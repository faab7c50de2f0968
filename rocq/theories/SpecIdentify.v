(** Specification of the certificate and of the identification handshake in a session (C110).  Bytes only. *)
From Verif Require Import Base.

(** ** Certificates *)

(** Whether transaction numbers are in use behind a packet, if [numbers] tells it before. *)
Definition numbers_behind (numbers : bool) (p : bytes) : bool :=
  match p with
  | x00 :: x00 :: _ | x00 :: x13 :: _ => false
  | x00 :: x38 :: _ => true
  | _ => numbers
  end.

(** The section of a certificate that a packet carries: its number, that of the last one, and the data.
    Versions below 2 have no sections. *)
Definition section_of (numbers : bool) (p : bytes) : option (N * N * bytes) :=
  match p with
  | x00 :: x15 :: r =>
      match (if numbers then skipn 2 r else r) with
      | major :: _ :: number :: last :: data => if (2 <=? b2n major)%N then Some (b2n number, b2n last, data) else None
      | _ => None
      end
  | _ => None
  end.

(** The sections of the packets [ps] in order. *)
Fixpoint sections_in (numbers : bool) (ps : list bytes) : list (N * N * bytes) :=
  match ps with
  | [] => []
  | p :: ps' => match section_of numbers p with Some s => [s] | None => [] end ++ sections_in (numbers_behind numbers p) ps'
  end.

(** The certificates that are put together from sections, [kept] being there already: section 0 starts
    anew, every other one is appended, and the last one completes the certificate. *)
Fixpoint completed (kept : bytes) (l : list (N * N * bytes)) : list bytes :=
  match l with
  | [] => []
  | (number, last, data) :: l' =>
      let kept' := if (number =? 0)%N then data else kept ++ data in
      (if (last <=? number)%N then [kept'] else []) ++ completed kept' l'
  end.

(** ** The handshake *)

(** One step: the accessory's packet and the packets of the answer.  [t] is a transaction number. *)
Definition step : Type := bytes * list bytes.

Definition starts (t : bytes) : step := ([x00; x38] ++ t, [[x00; x02] ++ t ++ [x00; x38]]).
Definition finishes (t : bytes) : step :=
  ([x00; x3b] ++ t ++ [x00], [[x00; x3c] ++ t ++ [x00]; [x00; x14] ++ [x00; x01]]).

(** Section number [i] of [last]: all but the last one are acknowledged, the last one is followed by the
    start of the audio lingo, the verdict on the certificate and the request for the signature. *)
Record part := mkPart { pt_trx : bytes; pt_major : byte; pt_minor : byte; pt_data : bytes }.
Definition presents (i last : nat) (x : part) : step :=
  ([x00; x15] ++ pt_trx x ++ [pt_major x; pt_minor x; n2b (N.of_nat i); n2b (N.of_nat last)] ++ pt_data x,
   if Nat.ltb i last then [[x00; x02] ++ pt_trx x ++ [x00; x15]]
   else [[x0a; x02] ++ [x00; x02]; [x00; x16] ++ pt_trx x ++ [x00]; [x00; x17] ++ pt_trx x ++ repeat x00 21]).

Fixpoint presents_from (i last : nat) (xs : list part) : list step :=
  match xs with [] => [] | x :: xs' => presents i last x :: presents_from (S i) last xs' end.

(** Parts that an accessory may send. *)
Definition proper (x : part) : Prop := List.length (pt_trx x) = 2 /\ (2 <= b2n (pt_major x))%N.

Definition handshake (t1 t2 : bytes) (xs : list part) : list step :=
  starts t1 :: finishes t2 :: presents_from 0 (List.length xs - 1) xs.

(** [among other steps pss]: the frames [pss], given by their packets, are the steps, each in a frame
    of its own, with frames of packets of another kind in between.  The last list tells for each frame
    the answer, if it is a step. *)
Inductive among (other : bytes -> Prop) : list step -> list (list bytes) -> list (option (list bytes)) -> Prop :=
| among_end : among other [] [] []
| among_step s steps pss l : among other steps pss l -> among other (s :: steps) ([fst s] :: pss) (Some (snd s) :: l)
| among_other ps steps pss l : Forall other ps -> among other steps pss l -> among other steps (ps :: pss) (None :: l).
