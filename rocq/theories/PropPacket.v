(** Properties C01-C11: checksum, packet format, packet reader. *)
From Verif Require Import Base BaseFacts Packet SpecPacket ClientPacket PacketThms.

(** ** C01 *)

(** Appending the checksum makes the checksum of the whole zero. *)
Theorem C01_checksum_closes p : checksum (p ++ [n2b (checksum p)]) = 0%N.
Proof. exact (PacketFacts.checksum_close p). Qed.
Print Assumptions C01_checksum_closes.

(** The checksum is the byte that makes the arithmetic sum a multiple of 256. *)
Theorem C01_checksum_meaning p :
  (checksum p < 256)%N /\ ((checksum p + sum_bytes p) mod 256 = 0)%N.
Proof. exact (checksum_is_negated_sum p). Qed.
Print Assumptions C01_checksum_meaning.

(** Changing one byte always changes the checksum. *)
Theorem C01_single_byte_change a x y b :
  x <> y -> checksum (a ++ x :: b) <> checksum (a ++ y :: b).
Proof. exact (checksum_single_change a x y b). Qed.
Print Assumptions C01_single_byte_change.

(** A well-formed packet with one payload or checksum byte replaced is rejected. *)
Theorem C01_corruption_rejected f h p c a x y b rest sp :
  filler f -> header_for (len p) h -> (sum_bytes (h ++ p ++ [c]) mod 256 = 0)%N ->
  p ++ [c] = a ++ x :: b -> x <> y ->
  ReadPacket (mkSlice (f ++ x55 :: h ++ (a ++ y :: b) ++ rest) sp)
  = Ret (mkSlice (h ++ (a ++ y :: b) ++ rest) sp, [], Some errInvalidChecksum).
Proof. exact (corruption_rejected f h p c a x y b rest sp). Qed.
Print Assumptions C01_corruption_rejected.

Example C01_case :
  checksum [x02; x00; x03] = 251%N
  /\ header_for (len [x00; x03]) [x02]
  /\ (sum_bytes ([x02] ++ [x00; x03] ++ [xfb]) mod 256 = 0)%N
  /\ [x00; x03] ++ [xfb] = [x00] ++ x03 :: [xfb]
  /\ ReadPacket (mkSlice [x55; x02; x00; x04; xfb] [])
     = Ret (mkSlice [x02; x00; x04; xfb] [], [], Some errInvalidChecksum).
Proof. repeat split; try reflexivity. apply header_small; [reflexivity|discriminate]. Qed.

(** ** C02 *)

(** Any sequence of calls on a CRC8 object observes exactly the checksum of the bytes
    written since the last reset. *)
Theorem C02_crc8_incremental ops : crc_run new_crc8 ops = crc_spec [] ops.
Proof. exact (crc_run_spec ops). Qed.
Print Assumptions C02_crc8_incremental.

Example C02_case :
  crc_run new_crc8 [OpWrite [x01]; OpWrite [x02; x03]; OpSum8; OpSum [x09]; OpReset; OpSum8; OpSize]
  = [OutWrite 1 None; OutWrite 2 None; OutSum8 250; OutSum [x09; xfa]; OutReset; OutSum8 0; OutSize 1].
Proof. reflexivity. Qed.

(** ** C03 *)

(** Exact bytes appended for every payload length the writer encodes correctly. *)
Theorem C03_wire_format frame p :
  writable p ->
  exists c, WritePacket frame p = (frame ++ [x55] ++ canonical_header (len p) ++ p ++ [c], None)
    /\ (sum_bytes (canonical_header (len p) ++ p ++ [c]) mod 256 = 0)%N
    /\ header_for (len p) (canonical_header (len p)).
Proof.
  exact (fun H => ex_intro _ _ (conj (PacketFacts.WritePacket_writable frame p H)
           (conj (PacketFacts.sum_close _ p) (PacketFacts.canonical_header_for _ (proj1 H))))).
Qed.
Print Assumptions C03_wire_format.

(** What is appended is a well-formed packet exactly for those lengths. *)
Theorem C03_wellformed_iff frame p w :
  p <> [] -> WritePacket frame p = (frame ++ w, None) -> (is_packet p w <-> writable p).
Proof. exact (write_wellformed_iff frame p w). Qed.
Print Assumptions C03_wellformed_iff.

(** Finding: a 256-byte payload is written with a lone zero length byte. *)
Theorem C03_256_malformed frame p :
  len p = 256%N ->
  WritePacket frame p = (frame ++ x55 :: x00 :: p ++ [n2b (checksum p)], None)
  /\ ~ is_packet p (x55 :: x00 :: p ++ [n2b (checksum p)]).
Proof. exact (write_256 frame p). Qed.
Print Assumptions C03_256_malformed.

Example C03_case :
  writable [x00; x03]
  /\ WritePacket [x99] [x00; x03] = ([x99; x55; x02; x00; x03; xfb], None)
  /\ writable (repeat x07 257)
  /\ firstn 4 (fst (WritePacket [] (repeat x07 257))) = [x55; x00; x01; x01]
  /\ len (repeat x07 256) = 256%N.
Proof. unfold writable, carriable. repeat split; try reflexivity; vm_compute; congruence. Qed.

(** ** C04 *)

Theorem C04_empty_payload frame : WritePacket frame [] = (frame, Some errEmptyPacket).
Proof. exact (write_empty frame). Qed.
Print Assumptions C04_empty_payload.

(** Acceptance is exactly non-emptiness, and earlier contents always survive as a prefix. *)
Theorem C04_write_extends frame p :
  (snd (WritePacket frame p) = None <-> p <> [])
  /\ exists w, fst (WritePacket frame p) = frame ++ w /\ (w = [] <-> p = []).
Proof. exact (write_extends frame p). Qed.
Print Assumptions C04_write_extends.

Example C04_case : fst (WritePacket [x01; x02] [x03]) = [x01; x02; x55; x01; x03; xfc].
Proof. reflexivity. Qed.

(** ** C05 *)

Theorem C05_stream_roundtrip ps sp k :
  Forall writable ps ->
  exists fr, read_n (List.length ps + k) (mkSlice (write_all NewPacketWriter ps) sp)
             = Ret (fr, map (fun p => (p, None)) ps ++ repeat ([], Some EOF) k).
Proof. exact (roundtrip ps sp k). Qed.
Print Assumptions C05_stream_roundtrip.

Theorem C05_single_iff p sp :
  (exists fr, ReadPacket (mkSlice (fst (WritePacket NewPacketWriter p)) sp) = Ret (fr, p, None))
  <-> writable p.
Proof. exact (roundtrip_single_iff p sp). Qed.
Print Assumptions C05_single_iff.

Example C05_case :
  Forall writable [[x55]; [x00; x03; x55]]
  /\ read_n 3 (mkSlice (write_all NewPacketWriter [[x55]; [x00; x03; x55]]) [x55; x01])
     = Ret (mkSlice [] [x55; x01], [([x55], None); ([x00; x03; x55], None); ([], Some EOF)]).
Proof. split; [|reflexivity]. repeat constructor; vm_compute; congruence. Qed.

(** ** C06 *)

Theorem C06_filler_invisible ps w sp k :
  stream ps w ->
  exists fr, read_n (List.length ps + k) (mkSlice w sp)
             = Ret (fr, map (fun p => (p, None)) ps ++ repeat ([], Some EOF) k).
Proof. exact (stream_read ps w sp k). Qed.
Print Assumptions C06_filler_invisible.

Example C06_case :
  stream [[x00; x03]] [x00; xff; x55; x02; x00; x03; xfb; x00; x00].
Proof.
  apply (stream_pkt [x00; xff] [x00; x03] [x55; x02; x00; x03; xfb] [] [x00; x00]).
  - unfold filler. cbn. intuition discriminate.
  - exists [x02], xfb. repeat split. apply header_small; [reflexivity|discriminate].
  - apply stream_end. unfold filler. cbn. intuition discriminate.
Qed.

(** ** C07 *)

(** Delivery happens exactly when the frame holds, at the next start byte, a well-formed
    packet; the bytes beyond the frame play no part and stay untouched. *)
Theorem C07_delivered_iff fr fr' p :
  ReadPacket fr = Ret (fr', p, None) <->
  exists f w, vis fr = f ++ w ++ vis fr' /\ filler f /\ is_packet p w /\ spare fr' = spare fr.
Proof. exact (delivered_iff fr fr' p). Qed.
Print Assumptions C07_delivered_iff.

Example C07_case :
  ReadPacket (mkSlice [x00; x55; x02; x00; x03; xfb; x00] [xaa])
  = Ret (mkSlice [x00] [xaa], [x00; x03], None).
Proof. reflexivity. Qed.

(** ** C08 *)

(** Of any number of calls, those not returning EOF come first and are at most as many as
    the frame has start bytes. *)
Theorem C08_reading_terminates n fr fr' rs :
  read_n n fr = Ret (fr', rs) ->
  exists a k, rs = a ++ repeat ([], Some EOF) k
    /\ List.length a + k = n
    /\ Forall (fun r => snd r <> Some EOF) a
    /\ List.length a <= count_occ Byte.byte_eq_dec (vis fr) x55.
Proof. rewrite <- count_start_occ. exact (reading_terminates n fr fr' rs). Qed.
Print Assumptions C08_reading_terminates.

Theorem C08_each_call_shortens fr fr' p e :
  ReadPacket fr = Ret (fr', p, e) ->
  (e = Some EOF /\ fr' = fr /\ p = [])
  \/ (e <> Some EOF /\ List.length (vis fr') < List.length (vis fr)
      /\ exists pre, vis fr = pre ++ vis fr').
Proof. exact (read_shortens fr fr' p e). Qed.
Print Assumptions C08_each_call_shortens.

Example C08_case :
  let fr := mkSlice [x55; x01; x55; x01; x02; x55; x00] [] in
  read_n 4 fr = Ret (mkSlice [x00] [], [([], Some errInvalidChecksum); ([], Some errInvalidChecksum);
                                        ([], Some UnexpectedEOF); ([], Some EOF)])
  /\ count_occ Byte.byte_eq_dec (vis fr) x55 = 3.
Proof. split; reflexivity. Qed.

(** ** C09 *)

(** Exact condition for the panic. *)
Theorem C09_panic_iff fr :
  ReadPacket fr = Panic <->
  exists f h n t, vis fr = f ++ x55 :: h ++ t /\ filler f /\ header_for n h
    /\ 3 <= List.length (h ++ t)
    /\ (len t < n + 1)%N
    /\ ((len t + len (spare fr) < n + 1)%N
        \/ (sum_bytes (h ++ firstn (N.to_nat (n + 1)) (t ++ spare fr)) mod 256 = 0)%N).
Proof. exact (panic_iff fr). Qed.
Print Assumptions C09_panic_iff.

(** The expected property "ReadPacket never panics" is false: a five-byte frame suffices. *)
Theorem C09_never_panics_refuted : exists fr, ReadPacket fr = Panic.
Proof. exists (mkSlice [x55; x05; x00; x03; x00] []). reflexivity. Qed.
Print Assumptions C09_never_panics_refuted.

Example C09_case_stale :
  ReadPacket (mkSlice [x55; x04; x00; x03] [x00; x00; xf9]) = Panic
  /\ ReadPacket (mkSlice [x55; x04; x00; x03] [x00; x00; xf8])
     = Ret (mkSlice [x04; x00; x03] [x00; x00; xf8], [], Some errInvalidChecksum).
Proof. split; reflexivity. Qed.

(** ** C10 *)

Theorem C10_truncated_never_delivered fr f h n t :
  vis fr = f ++ x55 :: h ++ t -> filler f -> header_for n h -> (len t < n + 1)%N ->
  ReadPacket fr = Panic
  \/ (exists fr', ReadPacket fr = Ret (fr', [], Some errInvalidChecksum))
  \/ (List.length (h ++ t) < 3 /\ exists fr', ReadPacket fr = Ret (fr', [], Some UnexpectedEOF)).
Proof. exact (truncated_never_delivered fr f h n t). Qed.
Print Assumptions C10_truncated_never_delivered.

Theorem C10_unexpected_eof_iff fr :
  (exists fr' p, ReadPacket fr = Ret (fr', p, Some UnexpectedEOF)) <->
  exists f d, vis fr = f ++ x55 :: d /\ filler f /\ List.length d < 3.
Proof. exact (unexpected_eof_iff fr). Qed.
Print Assumptions C10_unexpected_eof_iff.

Example C10_case :
  header_for 4 [x04]
  /\ ReadPacket (mkSlice ([] ++ x55 :: [x04] ++ [x00]) [x00]) = Ret (mkSlice [x04; x00] [x00], [], Some UnexpectedEOF).
Proof. split; [apply header_small; [reflexivity|discriminate]|reflexivity]. Qed.

(** ** C11 *)

(** After any rejected start byte, if no other start byte precedes the next well-formed
    packet, the next call delivers that packet. *)
Theorem C11_resync fr fr1 f bad p w rest q e :
  vis fr = f ++ x55 :: bad ++ w ++ rest -> filler f -> filler bad -> is_packet p w ->
  ReadPacket fr = Ret (fr1, q, Some e) ->
  q = [] /\ ReadPacket fr1 = Ret (mkSlice rest (spare fr), p, None).
Proof. exact (resync fr fr1 f bad p w rest q e). Qed.
Print Assumptions C11_resync.

Example C11_case :
  let fr := mkSlice ([] ++ x55 :: [x02; x00; x04; xfb; x00] ++ [x55; x02; x00; x03; xfb] ++ []) [] in
  exists fr1, ReadPacket fr = Ret (fr1, [], Some errInvalidChecksum)
              /\ ReadPacket fr1 = Ret (mkSlice [] [], [x00; x03], None).
Proof. eexists. split; reflexivity. Qed.
