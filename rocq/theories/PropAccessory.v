(** Property C97: an accessory that uses the library reads the server's replies. *)
From Verif Require Import Base BaseFacts GoTypes Types Payload Lingo Command SpecPayload SpecCommand Handlers SpecHandlers
  SpecRead ReadReplies.

(** ** C97 *)

(** Every reply of a fixed size is read as it was written, whether or not either side has numbers on. *)
Theorem C97_fixed {S} clock (dev : DeviceGeneral S) req h rt e e2 :
  answers_ok dev (h_dev h) -> off_the_wire rt req ->
  post (handlePacket std_registry clock dev req) h (fun _ _ evs =>
    Forall (fun c => forall t n, reply_type c = Some t -> fixed_size t n -> read_back rt e e2 c) (written evs)).
Proof. exact (packet_read_fixed clock dev req h rt e e2). Qed.
Print Assumptions C97_fixed.

(** When the request carries a number exactly if numbers are on, every reply that can be sent is read as
    it was written, except the information that holds text, which cannot be decoded. *)
Theorem C97_read {S} clock (dev : DeviceGeneral S) req h rt e :
  answers_ok dev (h_dev h) -> off_the_wire rt req -> numbered_properly e req ->
  post (handlePacket std_registry clock dev req) h (fun _ _ evs =>
    Forall (fun c => ~ unsendable c ->
      (text_info c -> unreadable rt e e c) /\ (~ text_info c -> read_back rt e e c)) (written evs)).
Proof. exact (packet_read clock dev req h rt e). Qed.
Print Assumptions C97_read.

Definition clock0 : nat -> datetime := fun _ => (2024, 5, 17, 12, 30)%N.
Definition outcome_of {S A} (o : outcome (hstate S * A)) : option (list command * list devcall) :=
  match o with Ret (h, _) => Some (written (h_log h), calls (h_log h)) | Panic => None end.
Definition h0 : hstate DevGeneral := mkH DevGeneral_init [] 0 0 [].

(** A request without its number is accepted all the same, and answered without a number; the accessory
    then takes the first two characters of the name for one (finding). *)
Theorem C97_unnumbered_refuted :
  exists req c b c',
    UnmarshalCmd true std_registry true [x00; x07] = Ret (true, req, None)
    /\ outcome_of (handlePacket std_registry clock0 DevGeneral_device req h0) = Some ([c], [CName])
    /\ MarshalCmd true true c = Ret (true, Ok b)
    /\ cmd_payload c = Some (Pst general_ReturniPodName [VBytes (list_byte_of_string "ipod-gadget" ++ [x00])])
    /\ UnmarshalCmd true std_registry true b = Ret (true, c', None)
    /\ cmd_payload c' = Some (Pst general_ReturniPodName [VBytes (list_byte_of_string "od-gadget" ++ [x00])]).
Proof. do 4 eexists. split; [vm_compute; reflexivity|]. split; [vm_compute; reflexivity|]. split; [vm_compute; reflexivity|].
  split; [vm_compute; reflexivity|]. split; vm_compute; reflexivity. Qed.
Print Assumptions C97_unnumbered_refuted.

(** A request for the name, with its number, and its reply. *)
Definition name_request : command := mkCmd 7 (Some 9%N) (Some (Pst general_RequestiPodName [])).
Example C97_case :
  off_the_wire true name_request /\ numbered_properly true name_request
  /\ answers_ok DevGeneral_device (h_dev h0)
  /\ exists c, outcome_of (handlePacket std_registry clock0 DevGeneral_device name_request h0) = Some ([c], [CName])
       /\ ~ unsendable c /\ ~ text_info c.
Proof.
  split; [exists true, [x00; x07; x00; x09], true, None; vm_compute; reflexivity|].
  split; [split; [reflexivity|discriminate]|]. split; [apply ReplyThms.DevGeneral_answers; reflexivity|].
  eexists. split; [vm_compute; reflexivity|]. split.
  - intros [(t & E & I)|(l & a & E & _)]; [|discriminate E].
    injection E as <-. cbn in I. intuition discriminate.
  - intros (ty & i & E & _). discriminate E.
Qed.
