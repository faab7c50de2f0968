(** More on property C127: the Go version. *)
From Coq Require Import Lia.
From Verif Require Import Mem SpecMem MemFacts MemThms MemServer Base BaseFacts GoTypes Types Payload Lingo Command SpecPayload SpecCommand Handlers SpecHandlers HandlersThms
  SpecProtocol Packet SpecPacket PacketThms Hid SpecHid HidThms Trace SpecTrace TraceThms TraceSessions Server SpecServer ServerFacts ServerThms SpecView ViewThms PropView
  SpecPlug SpecTransport TransportThms PropTransport SpecWire ProtocolProps PropProtocol SpecRecord RecordAnyThms SpecRetry RetryThms PropRetry
  SpecEdit EditThms PropEdit SpecRefuse RefuseThms PropRefuse SpecRefuseTrace RefuseTraceThms PropRefuseTrace SpecCut CutThms PropCut PropCrash SpecRealReplay RealReplayThms.
#[local] Opaque std_registry requests.

(** bytes.Buffer.grow since Go 1.18, for a buffer nothing was read from, up to 128 bytes: the allocator's sizes there are the
    multiples of 16. *)
Definition go_growth_rounded (cap len n : nat) : nat :=
  if (cap =? 0) && (n <=? 64) then 64 else 16 * Nat.div (Nat.max (2 * cap) (len + n) + 15) 16.

(** A single report of 70 bytes that ends with the start of a packet. *)
Definition wide : list ReportDef := [mkDef 1 99 0].
Definition unfinished : raw_read := ([x01; x00] ++ repeat x00 66 ++ [x55; x05; x00; x07], None).
Definition run_grown pol := processFrames 9 true std_registry clock_ticking DevGeneral_device
  (mem_transport 9 wide pol (traced_read append_file (gives [unfinished])) (tracer_Write append_file (gives [unfinished]))) h0 (new_mem, (0, [])).
Definition replay_grown pol := served (processFrames 9 true std_registry clock_ticking DevGeneral_device
  (mem_transport 9 wide pol replay_read discard) h0 (new_mem, NewReader (fst (write_msgs append_file [] (crossed [Read unfinished]))) EOF)).

(** Finding: the replay has to be built with the same version of Go.  A session that crashes with one goes on with the other,
    and so does the replay of the recording. *)
Theorem C127_version_refuted :
  usable wide /\ whole_or_error (gives [unfinished])
  /\ run_grown go_growth = Some Panic /\ replay_grown go_growth = Some Panic
  /\ exists st, served (run_grown go_growth_rounded) = done st /\ replay_grown go_growth_rounded = done st.
Proof.
  split; [|split; [apply gives_whole; repeat constructor; apply Nat.leb_le; vm_compute; reflexivity|]].
  - split; [repeat constructor; cbn; tauto|]. split; [repeat constructor; cbn; lia|]. exists (mkDef 1 99 0). split; [|cbn; lia].
    exists [], []. repeat split; constructor.
  - split; [vm_compute; reflexivity|]. split; [vm_compute; reflexivity|]. eexists. split; vm_compute; reflexivity.
Qed.
Print Assumptions C127_version_refuted.
