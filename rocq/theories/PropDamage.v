(** Property C100: a packet damaged on the way is as if it had not been sent. *)
From Coq Require Import ZifyBool ZifyNat ZifyN Lia Permutation.
From Verif Require Import Base BaseFacts GoTypes Types Payload Lingo Command SpecPayload SpecCommand Handlers SpecHandlers
  Packet SpecPacket Hid SpecHid Trace SpecTrace Server SpecServer SpecDamage DamageThms.

(** ** C100 *)

(** One frame, in any state of the server, with any implementation of the device and any transport: the
    frames sent, the next state and whether it crashes are those of any frame that carries the packets
    which were not damaged. *)
Theorem C100_never_sent {S W} rt clock (dev : DeviceGeneral S) (tp : transport W) st w arrived without sp sp' ps ps' :
  damaged ps arrived ps' -> stream ps' without ->
  process_frame rt std_registry clock dev tp st w (mkSlice arrived sp)
  = process_frame rt std_registry clock dev tp st w (mkSlice without sp').
Proof.
  exact (fun D T => same_packets rt clock dev tp st w _ _ ps' (damaged_holds ps arrived ps' sp D)
                      (ProtocolProps.stream_holds ps' without sp' T)).
Qed.
Print Assumptions C100_never_sent.

(** A whole session. *)
Theorem C100_session {S} rt clock (dev : DeviceGeneral S) ins ins' h fuel fuel' :
  Forall2 alike ins ins' -> List.length ins < fuel -> List.length ins < fuel' ->
  final (processFrames fuel rt std_registry clock dev script h (ins, []))
  = final (processFrames fuel' rt std_registry clock dev script h (ins', [])).
Proof. exact (fun A => alike_run rt clock dev ins ins' A (mkServer false h) [] fuel fuel'). Qed.
Print Assumptions C100_session.

(** More: frames with the same packets have the same effect, whatever else is in them. *)
Theorem C100_packets_only {S W} rt clock (dev : DeviceGeneral S) (tp : transport W) st w fr fr' ps :
  holds fr ps -> holds fr' ps ->
  process_frame rt std_registry clock dev tp st w fr = process_frame rt std_registry clock dev tp st w fr'.
Proof. exact (same_packets rt clock dev tp st w fr fr' ps). Qed.
Print Assumptions C100_packets_only.

(** This is not so if the byte changed is the length: a greater length in the last packet of a frame with
    nothing behind it always crashes the server. *)
Theorem C100_length_refuted {S W} rt clock (dev : DeviceGeneral S) (tp : transport W) st w f b b' p c :
  filler f -> is_packet p (x55 :: b :: p ++ [c]) -> b <> x00 -> (b2n b < b2n b')%N -> 2 <= List.length p ->
  process_frame rt std_registry clock dev tp st w (mkSlice (f ++ x55 :: b' :: p ++ [c]) []) = Some Panic.
Proof. exact (longer_crashes rt clock dev tp st w f b b' p c). Qed.
Print Assumptions C100_length_refuted.

(** Nor is it if the packet has another one inside: with a wrong check sum, that one is read instead,
    though nobody sent it. *)
Theorem C100_inside_refuted h p c c' a q v b sp :
  header_for (len p) h -> (sum_bytes (h ++ p ++ [c]) mod 256 = 0)%N -> c <> c' ->
  p = a ++ v ++ b -> is_packet q v -> filler (h ++ a) -> filler (b ++ [c']) ->
  holds (mkSlice (x55 :: h ++ p ++ [c']) sp) [q].
Proof. exact (ghost_packet h p c c' a q v b sp). Qed.
Print Assumptions C100_inside_refuted.

(** Nor if more than one byte is changed: the bytes of a payload in any other order pass the check sum. *)
Theorem C100_order_refuted p p' h c :
  Permutation p p' -> header_for (len p) h -> is_packet p (x55 :: h ++ p ++ [c]) -> is_packet p' (x55 :: h ++ p' ++ [c]).
Proof. exact (order_unprotected p p' h c). Qed.
Print Assumptions C100_order_refuted.

(** A request for the name and one for the serial number; the first arrives with a wrong second byte of
    the payload, the second whole.  The server answers the second only.  Then the three exceptions: length
    2 read as 3 for a request for the name; such a request inside another packet; a request for the name
    made a command of lingo 7. *)
Definition clock0 : nat -> datetime := fun _ => (2024, 5, 17, 12, 30)%N.
Definition h0 : hstate DevGeneral := mkH DevGeneral_init [] 0 0 [].
Definition name_request : bytes := [x55; x02; x00; x07; xf7].
Definition serial_request : bytes := [x55; x02; x00; x0b; xf3].

Lemma packet_ok h p c : header_for (len p) h -> (sum_bytes (h ++ p ++ [c]) mod 256 = 0)%N -> is_packet p (x55 :: h ++ p ++ [c]).
Proof. intros H S. exists h, c. auto. Qed.

Lemma no_start f : existsb (Byte.eqb x55) f = false -> filler f.
Proof.
  intros E I. assert (T : existsb (Byte.eqb x55) f = true) by (apply existsb_exists; exists x55; split; [exact I|reflexivity]).
  congruence.
Qed.

Lemma name_ok : is_packet [x00; x07] name_request.
Proof. apply (packet_ok [x02] [x00; x07] xf7); [apply header_small; [reflexivity|discriminate]|reflexivity]. Qed.
Lemma serial_ok : is_packet [x00; x0b] serial_request.
Proof. apply (packet_ok [x02] [x00; x0b] xf3); [apply header_small; [reflexivity|discriminate]|reflexivity]. Qed.

Example C100_case :
  damaged [[x00; x07]; [x00; x0b]] ([x00] ++ [x55; x02; x00; x17; xf7] ++ [xff] ++ serial_request ++ []) [[x00; x0b]]
  /\ stream [[x00; x0b]] ([] ++ serial_request ++ [])
  /\ (exists st' f,
        process_frame true std_registry clock0 DevGeneral_device script (mkServer false h0) ([], []) (mkSlice serial_request [])
        = done (st', ([], [f])) /\ firstn 4 f = [x55; x0b; x00; x0c])
  /\ process_frame true std_registry clock0 DevGeneral_device script (mkServer false h0) ([], [])
       (mkSlice ([] ++ x55 :: x03 :: [x00; x07] ++ [xf7]) []) = Some Panic
  /\ holds (mkSlice (x55 :: [x08] ++ [x00; x01; x55; x02; x00; x07; xf7; x00] ++ [xa3]) []) [[x00; x07]]
  /\ is_packet [x07; x00] (x55 :: [x02] ++ [x07; x00] ++ [xf7]).
Proof.
  split; [|split; [|split; [|split; [|split]]]].
  - apply (damaged_lost [x00] [x00; x07] name_request); [now apply no_start|exact name_ok| |].
    + apply (damage_body 2 [x02] [x00] x07 x17 [xf7]);
        [apply header_small; [reflexivity|discriminate]|reflexivity|discriminate|now apply no_start].
    + apply (damaged_whole [xff] [x00; x0b] serial_request); [now apply no_start|exact serial_ok|].
      apply damaged_end. now apply no_start.
  - apply stream_pkt; [now apply no_start|exact serial_ok|]. apply stream_end. now apply no_start.
  - eexists; eexists; split; vm_compute; reflexivity.
  - apply (C100_length_refuted true clock0 DevGeneral_device script (mkServer false h0) ([], []) [] x02 x03 [x00; x07] xf7);
      [now apply no_start|exact name_ok|discriminate|reflexivity|cbn; lia].
  - apply (C100_inside_refuted [x08] [x00; x01; x55; x02; x00; x07; xf7; x00] xa2 xa3 [x00; x01] [x00; x07] name_request [x00]);
      [apply header_small; [reflexivity|discriminate]|reflexivity|discriminate|reflexivity|exact name_ok|now apply no_start|now apply no_start].
  - apply (C100_order_refuted [x00; x07] [x07; x00] [x02] xf7); [apply perm_swap|apply header_small; [reflexivity|discriminate]|exact name_ok].
Qed.
