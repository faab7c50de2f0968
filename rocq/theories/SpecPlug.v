(** Specification of devices that answer alike (C114). *)
From Verif Require Import Base Payload Handlers SpecProtocol Server.

(** The answers of two devices to one question: the same, unless they are allowed to differ; the states go on
    being related. *)
Definition answer_alike {S1 S2 A} (R : S1 -> S2 -> Prop) (differ : Prop) (x : S1 * A) (y : S2 * A) : Prop :=
  R (fst x) (fst y) /\ (snd x = snd y \/ differ).

(** [alike may R d1 d2]: as long as their states are related by [R], the devices give the same answers, except
    to the calls in [may].  What SetToken returns is free. *)
Record alike {S1 S2} (may : devcall -> Prop) (R : S1 -> S2 -> Prop) (d1 : DeviceGeneral S1) (d2 : DeviceGeneral S2) : Prop := mkAlike {
  al_UIMode s t : R s t -> answer_alike R False (dev_UIMode d1 s) (dev_UIMode d2 t);
  al_SetUIMode s t m : R s t -> R (dev_SetUIMode d1 s m) (dev_SetUIMode d2 t m);
  al_Name s t : R s t -> answer_alike R (may CName) (dev_Name d1 s) (dev_Name d2 t);
  al_SoftwareVersion s t : R s t -> answer_alike R (may CSoftwareVersion) (dev_SoftwareVersion d1 s) (dev_SoftwareVersion d2 t);
  al_SerialNum s t : R s t -> answer_alike R (may CSerialNum) (dev_SerialNum d1 s) (dev_SerialNum d2 t);
  al_LingoProtocolVersion s t l : R s t ->
    answer_alike R (may (CLingoProtocolVersion l)) (dev_LingoProtocolVersion d1 s l) (dev_LingoProtocolVersion d2 t l);
  al_LingoOptions s t l : R s t -> answer_alike R (may (CLingoOptions l)) (dev_LingoOptions d1 s l) (dev_LingoOptions d2 t l);
  al_PrefSettingID s t c : R s t -> answer_alike R (may (CPrefSettingID c)) (dev_PrefSettingID d1 s c) (dev_PrefSettingID d2 t c);
  al_SetPrefSettingID s t c x b : R s t -> R (dev_SetPrefSettingID d1 s c x b) (dev_SetPrefSettingID d2 t c x b);
  al_StartIDPS s t : R s t -> R (dev_StartIDPS d1 s) (dev_StartIDPS d2 t);
  al_EndIDPS s t x : R s t -> R (dev_EndIDPS d1 s x) (dev_EndIDPS d2 t x);
  al_SetToken s t v : R s t -> R (fst (dev_SetToken d1 s v)) (fst (dev_SetToken d2 t v));
  al_AccAuthCert s t b : R s t -> R (dev_AccAuthCert d1 s b) (dev_AccAuthCert d2 t b);
  al_SetEventNotificationMask s t m : R s t -> R (dev_SetEventNotificationMask d1 s m) (dev_SetEventNotificationMask d2 t m);
  al_EventNotificationMask s t : R s t ->
    answer_alike R (may CEventNotificationMask) (dev_EventNotificationMask d1 s) (dev_EventNotificationMask d2 t);
  al_SupportedEventNotificationMask s t : R s t ->
    answer_alike R (may CSupportedEventNotificationMask) (dev_SupportedEventNotificationMask d1 s) (dev_SupportedEventNotificationMask d2 t);
  al_CancelCommand s t x y z : R s t -> R (dev_CancelCommand d1 s x y z) (dev_CancelCommand d2 t x y z);
  al_MaxPayload s t : R s t -> answer_alike R (may CMaxPayload) (dev_MaxPayload d1 s) (dev_MaxPayload d2 t)
}.

(** The general lingo's command in which the answer to a question is sent. *)
Definition told_in (c : devcall) : option byte :=
  match c with
  | CName => Some x08
  | CSoftwareVersion => Some x0a
  | CSerialNum => Some x0c
  | CLingoProtocolVersion _ => Some x10
  | CMaxPayload => Some x12
  | CPrefSettingID _ => Some x2a
  | CLingoOptions _ => Some x4c
  | CEventNotificationMask => Some x4e
  | CSupportedEventNotificationMask => Some x51
  | _ => None
  end.

(** Two frames that differ at most in the answer to a question of [may]. *)
Definition frames_alike (may : devcall -> Prop) (f1 f2 : bytes) : Prop :=
  f1 = f2 \/ exists c code b1 b2, may c /\ told_in c = Some code /\ f1 = frame_bytes (x00 :: code :: b1) /\ f2 = frame_bytes (x00 :: code :: b2).

(** A process at its start, with a device in state [s]. *)
Definition at_start {S} (s : S) : hstate S := mkH s [] 0 0 [].

(** No question may be answered differently. *)
Definition none (c : devcall) : Prop := False.

(** How two runs compare: both need more fuel, both crash, or both end and [Q] holds of the ends. *)
Definition compare {A B} (x : io A) (y : io B) (Q : A -> B -> Prop) : Prop :=
  match x, y with
  | None, None => True
  | Some Panic, Some Panic => True
  | Some (Ret a), Some (Ret b) => Q a b
  | _, _ => False
  end.
