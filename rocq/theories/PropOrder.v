(** Property C109: the order of requests. *)
From Coq Require Import ZifyBool ZifyNat ZifyN Lia.
From Verif Require Import Base BaseFacts GoTypes Types Payload Lingo Command SpecPayload SpecCommand Handlers SpecHandlers
  SpecProtocol Packet SpecPacket Hid SpecHid HidThms Trace SpecTrace Server SpecServer SpecWire ServerThms ProtocolProps
  Mem SpecMem MemThms MemServer ProtocolMore PropProtocol PropMachine SpecRetry RetryThms PropRetry SpecOrder OrderThms.
Notation fresh := SpecWire.fresh.
#[local] Opaque std_registry requests.

(** A frame of free packets sent later, behind other frames none of which identifies the accessory:
    both sessions crash, or both end with the same memory, and the answers [o] to this frame are the same
    reports in their new place; all other reports are the same, too. *)
Theorem C109_moved rt clock defs spares before rs between after pss1 ps pssb pss2 fuel :
  usable defs -> Forall2 (sends defs) before pss1 -> sends defs rs ps -> Forall2 (sends defs) between pssb -> Forall2 (sends defs) after pss2 ->
  Forall free ps -> Forall (Forall (fun p => ~ switches p)) pssb ->
  List.length (List.concat (before ++ [rs] ++ between ++ after)) < fuel ->
  let ran rss := session rt clock defs spares fuel rss in
  ran (before ++ [rs] ++ between ++ after) = Some Panic /\ ran (before ++ between ++ [rs] ++ after) = Some Panic
  \/ exists m m2 o1 o ob o2,
       ends_with (ran before) m o1 /\ ends_with (ran (before ++ [rs])) m (o1 ++ o)
       /\ ends_with (ran (before ++ [rs] ++ between ++ after)) m2 (o1 ++ o ++ ob ++ o2)
       /\ ends_with (ran (before ++ between ++ [rs] ++ after)) m2 (o1 ++ ob ++ o ++ o2).
Proof.
  intros U B S M A F K L ran.
  exact (run_moved rt clock defs fuel fresh (fun rss => ran rss = Some Panic) (fun rss => ends_with (ran rss))
           (fun rss pss => session_is rt clock defs spares fuel rss pss U) before rs between after pss1 ps pssb pss2 B S M A F K L).
Qed.
Print Assumptions C109_moved.

(** Frames of free packets in a row: each of them has its answers, and whichever of them are sent in that
    place, in whatever order and how often, the session ends with the same memory and the same reports but
    for the answers to those sent, in the order sent; it crashes if one has no answer.  Or the session
    crashes in any case, on account of the frames before or after. *)
Theorem C109_free rt clock defs spares before block after pss1 pssb pss2 fuel :
  usable defs -> Forall2 (sends defs) before pss1 -> Forall2 (sends defs) block pssb -> Forall2 (sends defs) after pss2 ->
  Forall (Forall free) pssb ->
  List.length (List.concat (before ++ block ++ after)) < fuel ->
  let ran rss := session rt clock defs spares fuel rss in
  let short rss := List.length (List.concat rss) < fuel in
  (forall block', incl block' block -> short (before ++ block' ++ after) -> ran (before ++ block' ++ after) = Some Panic)
  \/ exists m o1 o2 answered, map fst answered = block
       /\ forall answered', incl answered' answered -> short (before ++ map fst answered' ++ after) ->
            match all_there (map snd answered') with
            | None => ran (before ++ map fst answered' ++ after) = Some Panic
            | Some os => ends_with (ran (before ++ map fst answered' ++ after)) m (o1 ++ List.concat os ++ o2)
            end.
Proof.
  intros U B M A F L ran short.
  exact (run_free rt clock defs fuel fresh (fun rss => ran rss = Some Panic) (fun rss => ends_with (ran rss))
           (fun rss pss => session_is rt clock defs spares fuel rss pss U) before block after pss1 pssb pss2 B M A F L).
Qed.
Print Assumptions C109_free.

(** The same with the real buffers. *)
Theorem C109_memory rt clock defs pol mm before block after pss1 pssb pss2 fuel :
  usable defs -> reachable mm -> Forall2 (sends defs) before pss1 -> Forall2 (sends defs) block pssb -> Forall2 (sends defs) after pss2 ->
  Forall (Forall free) pssb ->
  List.length (List.concat (before ++ block ++ after)) < fuel ->
  let ran rss := session_mem rt clock defs pol mm fuel rss in
  let short rss := List.length (List.concat rss) < fuel in
  (forall block', incl block' block -> short (before ++ block' ++ after) -> ran (before ++ block' ++ after) = Some Panic)
  \/ exists m o1 o2 answered, map fst answered = block
       /\ forall answered', incl answered' answered -> short (before ++ map fst answered' ++ after) ->
            match all_there (map snd answered') with
            | None => ran (before ++ map fst answered' ++ after) = Some Panic
            | Some os => ends_with_mem (ran (before ++ map fst answered' ++ after)) m (o1 ++ List.concat os ++ o2)
            end.
Proof.
  intros U R B M A F L ran short.
  exact (run_free rt clock defs fuel fresh (fun rss => ran rss = Some Panic) (fun rss => ends_with_mem (ran rss))
           (fun rss pss => session_mem_is rt clock defs pol mm fuel rss pss U R) before block after pss1 pssb pss2 B M A F L).
Qed.
Print Assumptions C109_memory.

#[local] Transparent requests.

(** Finding: each of the ten tied commands has a request that cannot be exchanged with some other one:
    the replies to the two, taken together in the order sent, are not the same. *)
Theorem C109_tied_refuted :
  Forall (fun id => exists b m q mp fp mq fq mp' fp' mq' fq',
      receive_frame true clock_ticking m [id ++ b] = Some (mp, fp) /\ receive_frame true clock_ticking mp [q] = Some (mq, fq)
      /\ receive_frame true clock_ticking m [q] = Some (mq', fq') /\ receive_frame true clock_ticking mq' [id ++ b] = Some (mp', fp')
      /\ (fp, fq) <> (fp', fq')) tied.
Proof.
  assert (K : forall id b m q, 
    match receive_frame true clock_ticking m [id ++ b], receive_frame true clock_ticking m [q] with
    | Some (mp, fp), Some (mq', fq') =>
        match receive_frame true clock_ticking mp [q], receive_frame true clock_ticking mq' [id ++ b] with
        | Some (_, fq), Some (_, fp') => (fp, fq) <> (fp', fq')
        | _, _ => False
        end
    | _, _ => False
    end -> exists b m q mp fp mq fq mp' fp' mq' fq',
      receive_frame true clock_ticking m [id ++ b] = Some (mp, fp) /\ receive_frame true clock_ticking mp [q] = Some (mq, fq)
      /\ receive_frame true clock_ticking m [q] = Some (mq', fq') /\ receive_frame true clock_ticking mq' [id ++ b] = Some (mp', fp')
      /\ (fp, fq) <> (fp', fq')).
  { intros id b m q H. destruct (receive_frame true clock_ticking m [id ++ b]) as [[mp fp]|] eqn:E1; [|contradiction].
    destruct (receive_frame true clock_ticking m [q]) as [[mq' fq']|] eqn:E2; [|contradiction].
    destruct (receive_frame true clock_ticking mp [q]) as [[mq fq]|] eqn:E3; [|contradiction].
    destruct (receive_frame true clock_ticking mq' [id ++ b]) as [[mp' fp']|] eqn:E4; [|contradiction].
    exists b, m, q, mp, fp, mq, fq, mp', fp', mq', fq'. auto. }
  unfold tied.
  apply Forall_cons; [apply (K _ [x03] (mkMemory true false 0 0) [x00; x07; x00; x01]); vm_compute; discriminate|].
  apply Forall_cons; [apply (K _ [] fresh [x00; x05]); vm_compute; discriminate|].
  apply Forall_cons; [apply (K _ [] fresh [x00; x03]); vm_compute; discriminate|].
  apply Forall_cons; [apply (K _ [] (mkMemory false true 0 0) [x00; x03]); vm_compute; discriminate|].
  apply Forall_cons; [apply (K _ (zeros 12) (mkMemory true false 0 0) [x00; x07; x00; x01]); vm_compute; discriminate|].
  apply Forall_cons; [apply (K _ [x00; x01; x01; x00] (mkMemory true false 0 0) [x00; x3b; x00; x02; x00]); vm_compute; discriminate|].
  apply Forall_cons; [apply (K _ [] fresh [x00; x05]); vm_compute; discriminate|].
  apply Forall_cons; [apply (K _ [x00; x01] fresh [x00; x07; x00; x02]); vm_compute; discriminate|].
  apply Forall_cons; [apply (K _ [x00; x02; x00] (mkMemory true false 0 0) [x00; x15; x00; x01; x01; x00]); vm_compute; discriminate|].
  apply Forall_cons; [apply (K _ [x09] fresh [x03; x0c; x00; x01; x09]); vm_compute; discriminate|].
  apply Forall_nil.
Qed.
Print Assumptions C109_tied_refuted.

(** With transaction numbers in use: the requests for the name and for a lingo's version, in both orders,
    behind and before a switch to the extended mode. *)
Example C109_case :
  let start := request_of [x00; x38; x00; x01] in let name := request_of [x00; x07; x00; x02] in
  let version := request_of [x00; x0f; x00; x03; x04] in let enter := request_of [x00; x05; x00; x04] in
  Forall2 (sends DefaultReportDefs) [start; name; version; enter]
    [[[x00; x38; x00; x01]]; [[x00; x07; x00; x02]]; [[x00; x0f; x00; x03; x04]]; [[x00; x05; x00; x04]]]
  /\ Forall (Forall free) [[[x00; x07; x00; x02]]; [[x00; x0f; x00; x03; x04]]] /\ ~ switches [x00; x05; x00; x04]
  /\ exists m s n v e1 e2, n <> v
       /\ ends_with (session true clock0 DefaultReportDefs (fun _ => []) 9 [start; name; version; enter]) m [s; n; v; e1; e2]
       /\ ends_with (session true clock0 DefaultReportDefs (fun _ => []) 9 [start; version; enter; name]) m [s; v; e1; e2; n].
Proof.
  cbv zeta. split; [|split; [|split]].
  - repeat (apply Forall2_cons; [apply request_sent; [split; vm_compute; (reflexivity || discriminate || (split; discriminate))|vm_compute; lia]|]). apply Forall2_nil.
  - repeat (apply Forall_cons; [apply Forall_cons; [|apply Forall_nil]; intros I; vm_compute in I; intuition discriminate|]). apply Forall_nil.
  - intros (c & b & E & I). injection E as <- <-. cbn [In] in I. intuition discriminate.
  - do 6 eexists. split; [|split; do 3 eexists; (split; [vm_compute; reflexivity|vm_compute; reflexivity])]. discriminate.
Qed.
