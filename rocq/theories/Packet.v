(** Model of packet.go and crc.go. *)
From Verif Require Import Base.

(** ** crc.go *)

(** crc.go:36-42 [Checksum]: [var crc byte; for v { crc += v }; return -crc].
    Byte arithmetic wraps modulo 256 at each step; the negation is the
    two's complement of the final byte. *)
Definition checksum (p : bytes) : N :=
  ((256 - fold_left (fun crc v => (crc + b2n v) mod 256) p 0) mod 256)%N.

(** crc.go:12-34, the hash object.  The state is the running byte. *)
Definition crc8 := N.
Definition new_crc8 : crc8 := 0%N.                                (* crc.go:32-34 *)
Definition crc8_write (c : crc8) (p : bytes) : crc8 * (N * option goerr) :=
  (fold_left (fun crc v => (crc + b2n v) mod 256)%N p c, (len p, None)). (* crc.go:16-21 *)
Definition crc8_sum8 (c : crc8) : N := ((256 - c) mod 256)%N.      (* crc.go:23 *)
Definition crc8_sum (c : crc8) (inp : bytes) : bytes := inp ++ [n2b (crc8_sum8 c)]. (* crc.go:25-27 *)
Definition crc8_reset (c : crc8) : crc8 := 0%N.                    (* crc.go:28 *)
Definition crc8_size : N := 1%N.                                  (* crc.go:29 *)
Definition crc8_blocksize : N := 1%N.                             (* crc.go:30 *)

(** ** Slices with capacity *)

(** A [[]byte]: [vis] are the [len] visible bytes, [spare] the bytes of the
    backing array after them, up to [cap]. *)
Record slice := mkSlice { vis : bytes; spare : bytes }.

(** Go [s[:n]]: legal up to the capacity, exposing spare bytes; else panics. *)
Definition slice_to (s : slice) (n : nat) : outcome slice :=
  let all := vis s ++ spare s in
  if Nat.leb n (List.length all)
  then Ret (mkSlice (firstn n all) (skipn n all))
  else Panic.

(** Go [s[n:]], i.e. [s[n:len(s)]]: panics when [n > len(s)]. *)
Definition slice_from (s : slice) (n : nat) : outcome slice :=
  if Nat.leb n (List.length (vis s))
  then Ret (mkSlice (skipn n (vis s)) (spare s))
  else Panic.

(** ** packet.go *)

Definition PacketStartByte : byte := x55.                         (* packet.go:13 *)
Definition largePacketMinLen : nat := 256.                        (* packet.go:18 *)

(** packet.go:32-45 [parseHeader]: (payOff, payLen) or an error. *)
Definition parseHeader (data : bytes) : (nat * nat) + goerr :=
  match data with
  | b0 :: b1 :: b2 :: _ =>
      if byte_eqb b0 x00
      then inl (3, N.to_nat (be_dec [b1; b2]))
      else inl (1, N.to_nat (b2n b0))
  | _ => inr UnexpectedEOF
  end.

Definition errInvalidChecksum : goerr := ErrMsg "invalid checksum".

(** packet.go:47-62 [parsePacket]: (pktLen, payload, err).  The check of
    line 54 is kept although line 53 makes it unreachable. *)
Definition parsePacket (data : slice) : outcome (nat * bytes * option goerr) :=
  match parseHeader (vis data) with
  | inr e => Ret (0, [], Some e)                                  (* 49-51 *)
  | inl (payOff, payLen) =>
      let pktLen := payOff + payLen + 1 in                        (* 52 *)
      do pkt <- slice_to data pktLen;                             (* 53 *)
      if Nat.ltb (List.length (vis pkt)) pktLen                   (* 54-56 *)
      then Ret (pktLen, [], Some UnexpectedEOF)
      else if negb (N.eqb (checksum (vis pkt)) 0)                 (* 57-59 *)
      then Ret (pktLen, [], Some errInvalidChecksum)
      else Ret (pktLen, firstn payLen (skipn payOff (vis pkt)), None) (* 61 *)
  end.

(** packet.go:22-24, the reader's only field is the unread frame;
    [NewPacketReader] (26-30) stores it. *)
Definition NewPacketReader (frame : slice) : slice := frame.

(** packet.go:64-76 [ReadPacket]: new reader state, payload, error. *)
Definition ReadPacket (frame : slice) : outcome (slice * bytes * option goerr) :=
  match index_byte PacketStartByte (vis frame) with               (* 65 *)
  | None => Ret (frame, [], Some EOF)                             (* 66-68 *)
  | Some next =>
      do frame1 <- slice_from frame (next + 1);                   (* 69 *)
      do r <- parsePacket frame1;                                 (* 70 *)
      let '(pktLen, payload, err) := r in
      match err with
      | Some e => Ret (frame1, [], Some e)                        (* 71-73 *)
      | None =>
          do frame2 <- slice_from frame1 pktLen;                  (* 74 *)
          Ret (frame2, payload, None)                             (* 75 *)
      end
  end.

Definition errEmptyPacket : goerr := ErrMsg "packet encode: empty packet".

(** packet.go:82-86: an empty frame (its initial capacity is not observable). *)
Definition NewPacketWriter : bytes := [].

(** packet.go:88-107 [WritePacket]: new writer frame and error. *)
Definition WritePacket (frame : bytes) (payload : bytes) : bytes * option goerr :=
  match payload with
  | [] => (frame, Some errEmptyPacket)                            (* 89-91 *)
  | _ :: _ =>
      let header :=
        if Nat.ltb largePacketMinLen (List.length payload)        (* 96 *)
        then x00 :: be_enc 2 (len payload)                        (* 97-99 *)
        else [n2b (len payload)] in                               (* 100-102 *)
      let body := header ++ payload in                            (* 104 *)
      (frame ++ PacketStartByte :: body ++ [n2b (checksum body)], None) (* 93,105 *)
  end.
