(** C77: decoding of packets, completely. *)
From Verif Require Import Base BaseFacts GoTypes Types Payload Lingo SpecPayload Command SpecCommand
  LingoFacts ReadFacts CommandFacts ReadThms.

(** A packet is decoded without error exactly when the reading relation of SpecPayload and
    SpecCommand gives it a meaning, and the command returned is that meaning. *)
Theorem C77_decodes rt reg e pkt e' c :
  UnmarshalCmd rt reg e pkt = Ret (e', c, None)
  <-> (exists id, packet_id pkt = Some id /\ e' = mode_after e [id]) /\ command_reads rt reg e' pkt c.
Proof. exact (UnmarshalCmd_reads rt reg e pkt e' c). Qed.
Print Assumptions C77_decodes.

(** No packet has two meanings. *)
Theorem C77_one_meaning rt reg mode pkt c c' :
  command_reads rt reg mode pkt c -> command_reads rt reg mode pkt c' -> c = c'.
Proof. exact (command_reads_fun rt reg mode pkt c c'). Qed.
Print Assumptions C77_one_meaning.

(** The same for the bytes of one token. *)
Theorem C77_token rt x v : token_value_unmarshal rt x = Ret (Ok v) <-> token_reads rt v x.
Proof. exact (token_reads_iff rt x v). Qed.
Print Assumptions C77_token.

(** Finding: an identify token is accepted although the packet ends inside it; every field it
    lacks becomes zero, also the lingo ids that were there. *)
Theorem C77_cut_token_accepted rt k n r :
  List.length r < N.to_nat (b2n n) -> 3 + List.length r < N.to_nat (b2n k) ->
  UnmarshalCmd rt std_registry false (x00 :: x39 :: x01 :: k :: x00 :: x00 :: n :: r)
  = Ret (false, mkCmd 57 None (Some (PTokens [mkTV 0 0 (TokIdentify (repeat x00 (N.to_nat (b2n n))) 0 0)])), None).
Proof.
  intros Hr Hk. apply C77_decodes. split; [exists 57%N; split; reflexivity|].
  exists 57%N, general_SetFIDTokenValues, false, [], (x01 :: k :: x00 :: x00 :: n :: r).
  eexists. split; [reflexivity|]. split; [|split; [reflexivity|split; [reflexivity|split; [|reflexivity]]]].
  - apply ch_only; [vm_compute; reflexivity|]. intros c (m & H & _). discriminate H.
  - apply py_tokens. change (N.to_nat (b2n x01)) with 1. apply rr_cut; [cbn [List.length]; lia|].
    exact (tr_identify rt n r _ [] (repeat x00 4) [] (repeat x00 4) [] (chunk_short _ r Hr)
             (chunk_short 4 [] ltac:(cbn; lia)) (chunk_short 4 [] ltac:(cbn; lia))).
Qed.
Print Assumptions C77_cut_token_accepted.

Example C77_case :
  (* two tokens and two bytes beyond them, with a transaction *)
  command_reads true std_registry true
    [x00; x39; x12; x34; x02; x0c; x00; x00; x01; x0a; x00; x00; x00; x02; x00; x00; x02; x00;
     x05; x00; x02; x01; x41; x00; xee; xff]
    (mkCmd 57 (Some 4660%N)
       (Some (PTokens [mkTV 0 0 (TokIdentify [x0a] 2 512); mkTV 0 2 (TokAccInfo 1 (Some [x41; x00]))])))
  /\ (* nothing is understood from a packet without a token count *)
     (forall c, ~ command_reads true std_registry false [x00; x39] c).
Proof.
  split.
  - apply (C77_decodes true std_registry true). vm_compute. reflexivity.
  - intros c H. assert (E := conj (ex_intro (fun id => packet_id [x00; x39] = Some id /\ false = mode_after false [id]) 57%N
                             (conj eq_refl eq_refl)) H).
    apply C77_decodes in E. vm_compute in E. discriminate E.
Qed.
