(** Property C104: reports that arrive more than once. *)
From Coq Require Import ZifyBool ZifyNat ZifyN Lia.
From Verif Require Import Base BaseFacts GoTypes Types Payload Lingo Command SpecPayload SpecCommand Handlers SpecHandlers
  SpecProtocol Packet SpecPacket Hid SpecHid HidThms Trace SpecTrace Server SpecServer SpecWire ServerThms ProtocolProps
  Mem SpecMem MemThms MemServer ProtocolMore PropProtocol SpecDamage SpecLoss LossThms PropLoss SpecTwice.
Notation fresh := SpecWire.fresh.
#[local] Opaque std_registry requests.

Lemma stream_damaged ps f : stream ps f -> damaged ps f ps.
Proof.
  induction 1; [now apply damaged_end|]. now apply damaged_whole.
Qed.

Lemma carries_first defs rs last f more : carries defs (rs ++ [last]) f -> starts_afresh ((rs ++ [last]) ++ more).
Proof. intros [cs (first & rest & -> & ST & _) _ _ _ _]. exact ST. Qed.

(** What arrives is what arrives when each frame is sent as often as it was tried and reports are lost. *)
Lemma echoed_passes defs sent arrived pss : echoed defs sent arrived pss -> exists sent', passes defs sent' arrived pss.
Proof.
  induction 1 as [|rs f ps sent arrived pss C S _ [s' IH]|rs last f ps left sent arrived pss C S SO _ [s' IH]
                 |first rs last f ps left cs sent arrived pss C S SO CS Fi _ [s' IH]|rs f ps sent arrived pss C S _ [s' IH]].
  - exists []. apply passes_end.
  - eexists. eapply passes_whole; eauto using stream_damaged.
  - eexists. eapply passes_unfinished; [exact C|exact SO|eapply carries_first; exact C|].
    eapply passes_whole; eauto using stream_damaged.
  - eexists. eapply passes_whole; [exact C|now apply stream_damaged|].
    eapply passes_headless; [exact C|exact SO|exact CS|exact Fi|exact IH].
  - eexists. eapply passes_whole; [exact C|now apply stream_damaged|]. eapply passes_whole; eauto using stream_damaged.
Qed.

(** ** C104 *)

(** The server's session is the one with the packets that count. *)
Theorem C104_again rt clock defs spares sent arrived pss fuel fuel2 :
  usable defs -> echoed defs sent arrived pss -> List.length arrived < fuel -> List.length arrived < fuel2 ->
  let served := processFrames fuel rt std_registry clock DevGeneral_device
               (hid_transport fuel2 defs spares wire_read wire_write) h0 ((map as_read arrived, []), 0) in
  match conversation rt clock fresh pss with
  | None => served = Some Panic
  | Some (m, fs) =>
      exists st' rest k outs, served = done (st', ((rest, outs), k)) /\ memory_of st' = m /\ departs defs fs outs
  end.
Proof.
  intros U E L L2. destruct (echoed_passes _ _ _ _ E) as (s' & P). exact (C101_never_sent rt clock defs spares s' arrived pss fuel fuel2 U P L L2).
Qed.
Print Assumptions C104_again.

(** The same with the real buffers. *)
Theorem C104_memory rt clock defs pol m sent arrived pss fuel fuel2 :
  usable defs -> reachable m -> echoed defs sent arrived pss -> List.length arrived < fuel -> List.length arrived < fuel2 ->
  let served := processFrames fuel rt std_registry clock DevGeneral_device
               (mem_transport fuel2 defs pol wire_read wire_write) h0 (m, (map as_read arrived, [])) in
  match conversation rt clock fresh pss with
  | None => served = Some Panic
  | Some (mm, fs) =>
      exists st' m' rest outs, served = done (st', (m', (rest, outs))) /\ memory_of st' = mm /\ departs defs fs outs
  end.
Proof.
  intros U R E L L2. destruct (echoed_passes _ _ _ _ E) as (s' & P). exact (C101_memory rt clock defs pol m s' arrived pss fuel fuel2 U R P L L2).
Qed.
Print Assumptions C104_memory.

(** Finding: a report between the first and the last that comes twice can turn the request into another one:
    asked for the version of lingo 0xdf, the server tells that of lingo 0x0f. *)
Definition version_asked (lingo c : byte) : list Report := [part x02 [x55; x03; x00]; part x03 [x0f]; part x01 [lingo; c]].
Definition version_told : bytes := frame_bytes [x00; x10; x0f; x01; x01].
Theorem C104_middle_refuted :
  exists a b c st' k outs,
    version_asked xdf x0f = [a; b; c] /\ (exists f, carries DefaultReportDefs [a; b; c] f /\ is_packet [x00; x0f; xdf] f)
    /\ processFrames 3 true std_registry clock0 DevGeneral_device
         (hid_transport 9 DefaultReportDefs (fun _ => []) wire_read wire_write) h0 ((map as_read [a; b; b; c], []), 0)
       = done (st', (([], outs), k))
    /\ exists id n, outs = [id :: x00 :: version_told ++ repeat x00 n].
Proof.
  do 6 eexists. split; [reflexivity|]. split; [|split; [vm_compute; reflexivity|]].
  - eexists. split; [|exact (small_packet [x00; x0f; xdf] x0f ltac:(cbn; lia) eq_refl)].
    apply carries_intro with [[x55; x03; x00]; [x0f]; [xdf; x0f]].
    + do 2 eexists. split; [reflexivity|]. split; [now right|].
      repeat (apply Forall_cons; [intros [H|H]; discriminate H|]). apply Forall_nil.
    + exists (firstn 2 (version_asked xdf x0f)), (part x01 [xdf; x0f]). split; [reflexivity|]. split; [now right|].
      repeat (apply Forall_cons; [intros [H|H]; discriminate H|]). apply Forall_nil.
    + repeat (apply Forall_cons; [cbn; lia|]). apply Forall_nil.
    + repeat (apply Forall2_cons; [apply contributes9; [reflexivity|cbn; lia]|]). apply Forall2_nil.
    + reflexivity.
  - exists x01, 3. vm_compute. reflexivity.
Qed.
Print Assumptions C104_middle_refuted.

(** Three requests in two reports each: the first is given up and sent again, of the second the last report
    comes twice, the third comes twice.  The server answers four times. *)
Definition thrice_arrived : list Report :=
  [part x02 [x55; x02; x00]] ++ (([part x02 [x55; x02; x00]] ++ [part x01 [x0b; xf3]]) ++
  ((part x02 [x55; x02; x00] :: [] ++ [part x01 [x07; xf7]]) ++ ([] ++ ([part x01 [x07; xf7]] ++
  (serial_asked ++ (serial_asked ++ [])))))).
Example C104_case :
  echoed DefaultReportDefs [serial_asked; second_sent; serial_asked] thrice_arrived [[[x00; x0b]]; [[x00; x07]]; [[x00; x0b]]; [[x00; x0b]]]
  /\ usable DefaultReportDefs
  /\ (exists st' k outs, processFrames 20 true std_registry clock0 DevGeneral_device
        (hid_transport 20 DefaultReportDefs (fun _ => []) wire_read wire_write) h0 ((map as_read thrice_arrived, []), 0)
        = done (st', (([], outs), k))
      /\ map (fun o => firstn 4 (skipn 2 o)) outs
         = [[x55; x0b; x00; x0c]; [x55; x0e; x00; x08]; [x55; x0b; x00; x0c]; [x55; x0b; x00; x0c]]).
Proof.
  assert (K : forall p c, (0 < len p < 256)%N -> (sum_bytes ([n2b (len p)] ++ p ++ [c]) mod 256 = 0)%N ->
    stream [p] (x55 :: [n2b (len p)] ++ p ++ [c])).
  { intros p c A B. pose proof (small_packet p c A B) as H. revert H. generalize (x55 :: [n2b (len p)] ++ p ++ [c]). intros w H.
    replace w with ([] ++ w ++ []) by (cbn [app]; now rewrite app_nil_r). apply stream_pkt; [intros []|exact H|]. apply stream_end. intros []. }
  assert (S : stream [[x00; x0b]] [x55; x02; x00; x0b; xf3]) by exact (K [x00; x0b] xf3 ltac:(cbn; lia) eq_refl).
  assert (N : stream [[x00; x07]] [x55; x02; x00; x07; xf7]) by exact (K [x00; x07] xf7 ltac:(cbn; lia) eq_refl).
  assert (CS : carries DefaultReportDefs serial_asked [x55; x02; x00; x0b; xf3])
    by (apply (two_parts [x55; x02; x00] [x0b; xf3]); cbn; lia).
  split; [|split; [exact default_usable|do 3 eexists; split; vm_compute; reflexivity]].
  apply (echoed_restarted _ [part x02 [x55; x02; x00]] (part x01 [x0b; xf3]) [x55; x02; x00; x0b; xf3]);
    [exact CS|exact S|apply some_kept, some_none|].
  apply (echoed_tail _ (part x02 [x55; x02; x00]) [] (part x01 [x07; xf7]) [x55; x02; x00; x07; xf7] _ [] [[x07; xf7]]);
    [apply (two_parts [x55; x02; x00] [x07; xf7]); cbn; lia|exact N|apply some_none| |now apply no_start|].
  - cbn [app]. apply Forall2_cons; [apply contributes9; [reflexivity|cbn; lia]|apply Forall2_nil].
  - apply (echoed_twice _ serial_asked [x55; x02; x00; x0b; xf3]); [exact CS|exact S|apply echoed_end].
Qed.
