(** What can happen to the memory of a session while somebody holds a slice of it. *)
From Verif Require Import Base GoTypes Types Payload Lingo Command Handlers Packet Hid Server Mem.

(** What the tool does with its buffers: it reads a frame, decodes a packet, or takes a section of
    an accessory certificate. *)
Inductive kind := Reading | Decoding | Certifying (section : N).

Inductive step : kind -> mem -> mem -> Prop :=
| step_read {D} fuel defs pol (rd : D -> io (D * raw_read)) d m m' d' r :
    ReadFrame_mem fuel defs pol rd m d = done (m', d', r) -> step Reading m m'
| step_decode rt reg mode m pkt h' r :
    UnmarshalCmd_mem rt reg mode (m_heap m) pkt = Ret (h', r) ->
    step Decoding m (mkMem h' (m_buf m) (m_raw m) (m_cert m))
| step_cert pol m section data :
    step (Certifying section) m (cert_section pol m section data).

(** Any number of things of the allowed kinds. *)
Inductive steps (allowed : kind -> Prop) (m : mem) : mem -> Prop :=
| steps_none : steps allowed m m
| steps_more k m1 m2 : steps allowed m m1 -> allowed k -> step k m1 m2 -> steps allowed m m2.

Definition anything : kind -> Prop := fun _ => True.
Definition no_reading : kind -> Prop := fun k => k <> Reading.
Definition no_new_certificate : kind -> Prop := fun k => k <> Certifying 0.

(** A memory that a session reaches. *)
Definition reachable (m : mem) : Prop := steps anything new_mem m.

(** [s] is (part of) the frame the last ReadFrame returned. *)
Definition in_frame (m : mem) (s : ref) : Prop :=
  rf_arr s = bf_arr (m_buf m) /\ rf_off s + rf_len s <= bf_len (m_buf m).

(** The tokens that hold a slice of the packet: External Accessory protocol tokens. *)
Definition is_protocol (v : token_value) : bool :=
  match tv_token v with TokEAProtocol _ _ => true | _ => false end.

(** Two tokens that differ at most in the bytes of a protocol string. *)
Definition same_but_string (v w : token_value) : Prop :=
  match tv_token v, tv_token w with
  | TokEAProtocol i x, TokEAProtocol j y =>
      i = j /\ List.length x = List.length y /\ tv_type v = tv_type w /\ tv_sub v = tv_sub w
  | _, _ => v = w
  end.

(** A frame carried by one report: what the device delivers for it. *)
Definition one_report (d : ReportDef) (frame : bytes) : bytes := z2b (def_ID d) :: x00 :: frame.

(** Two payloads that differ at most in the bytes of protocol strings or of an unknown body. *)
Definition same_but_slices (p q : payload) : Prop :=
  match p, q with
  | PTokens vs, PTokens ws => Forall2 same_but_string vs ws
  | PUnknown b, PUnknown c => List.length b = List.length c
  | _, _ => p = q
  end.

(** Two runs of the server that end alike, whatever the transports' own state. *)
Definition same_end {S W V} (dev : W -> V -> Prop) (x : io (server S * W)) (y : io (server S * V)) : Prop :=
  match x, y with
  | None, None => True
  | Some Panic, Some Panic => True
  | Some (Ret (st, w)), Some (Ret (st', v)) => st = st' /\ dev w v
  | _, _ => False
  end.
