(** Specification of packets damaged on the way (C100).  Uses only bytes and the packet format. *)
From Verif Require Import Base Packet SpecPacket.

(** [damage w w']: one byte of the packet [w] was changed on the way, so that [w'] arrives, and no start
    byte is left but the first.  The byte changed is the start byte, or one of the payload, or the check
    sum; not one of the length. *)
Inductive damage : bytes -> bytes -> Prop :=
| damage_start y v : filler (y :: v) -> damage (x55 :: v) (y :: v)
| damage_body n h a x y b :
    header_for n h -> List.length (a ++ x :: b) = S (N.to_nat n) -> x <> y -> filler (h ++ a ++ y :: b) ->
    damage (x55 :: h ++ a ++ x :: b) (x55 :: h ++ a ++ y :: b).

(** [damaged ps w ps']: the packets [ps] were sent, in a frame with filler before, between and after them;
    of these [ps'] arrive whole in [w], and each of the others with one byte changed. *)
Inductive damaged : list bytes -> bytes -> list bytes -> Prop :=
| damaged_end f : filler f -> damaged [] f []
| damaged_whole f p w ps rest ps' :
    filler f -> is_packet p w -> damaged ps rest ps' -> damaged (p :: ps) (f ++ w ++ rest) (p :: ps')
| damaged_lost f p w w' ps rest ps' :
    filler f -> is_packet p w -> damage w w' -> damaged ps rest ps' -> damaged (p :: ps) (f ++ w' ++ rest) ps'.

(** What the server reads, as sent and as it arrives: the same read errors, and frames that carry the
    packets which were not damaged, with any spare bytes behind them. *)
Definition alike (x y : slice + goerr) : Prop :=
  match x, y with
  | inl arrived, inl without =>
      exists ps ps', damaged ps (vis arrived) ps' /\ stream ps' (vis without)
  | inr e, inr e' => e = e'
  | _, _ => False
  end.
