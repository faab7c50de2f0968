(** Specification of the iAP packet wire format and of reading a frame,
    written without reference to the code.  Uses only lists of bytes. *)
From Verif Require Import Base.

(** Arithmetic sum of the bytes of a string. *)
Fixpoint sum_bytes (l : bytes) : N :=
  match l with [] => 0 | b :: l' => b2n b + sum_bytes l' end%N.

(** [header_for n h]: [h] is a length header announcing [n] payload bytes:
    either one non-zero length byte, or 0x00 and a big-endian 16-bit length. *)
Inductive header_for (n : N) : bytes -> Prop :=
| header_small b : b2n b = n -> n <> 0%N -> header_for n [b]
| header_large hi lo : (256 * b2n hi + b2n lo = n)%N -> header_for n [x00; hi; lo].

(** [is_packet payload w]: [w] is a well-formed packet carrying [payload]. *)
Definition is_packet (payload w : bytes) : Prop :=
  exists h c, w = x55 :: h ++ payload ++ [c]
    /\ header_for (len payload) h
    /\ (sum_bytes (h ++ payload ++ [c]) mod 256 = 0)%N.

(** The header the protocol asks a sender to use. *)
Definition canonical_header (n : N) : bytes :=
  if (n <? 256)%N then [n2b n] else [x00; n2b (n / 256); n2b n].

(** Payload lengths the protocol can carry. *)
Definition carriable (p : bytes) : Prop := (1 <= len p <= 65535)%N.

(** Payload lengths that the code's writer encodes correctly. *)
Definition writable (p : bytes) : Prop := carriable p /\ len p <> 256%N.

(** Filler between packets: anything without a start byte. *)
Definition filler (f : bytes) : Prop := ~ In x55 f.

(** [stream ps w]: [w] is a frame holding exactly the packets [ps], in order,
    with filler before, between and after them. *)
Inductive stream : list bytes -> bytes -> Prop :=
| stream_end f : filler f -> stream [] f
| stream_pkt f p w ps rest :
    filler f -> is_packet p w -> stream ps rest -> stream (p :: ps) (f ++ w ++ rest).
