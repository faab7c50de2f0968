(** Property C101: reports lost on the way cost their own frames only. *)
From Coq Require Import ZifyBool ZifyNat ZifyN Lia.
From Verif Require Import Base BaseFacts GoTypes Types Payload Lingo Command SpecPayload SpecCommand Handlers SpecHandlers
  SpecProtocol Packet SpecPacket Hid SpecHid HidThms Trace SpecTrace Server SpecServer SpecWire ServerThms ProtocolProps
  Mem SpecMem MemThms MemServer ProtocolMore PropProtocol SpecDamage SpecLoss LossThms.
Notation fresh := SpecWire.fresh.
#[local] Opaque std_registry requests.

(** ** C101 *)

(** Whatever was read before - reports of any frames in any order, of unknown ids, read errors - a frame
    whose reports come in a row is read next, exactly.  How many reads give what before it depends only on
    what came before it. *)
Theorem C101_resync defs pre :
  Forall (fun x => match x with inl r => live defs r \/ unknown defs r | inr _ => True end) pre ->
  exists res, forall rs f buf suf, carries defs rs f ->
    read_frames (S (List.length res)) defs buf (pre ++ map inl rs ++ suf) = Ret (suf, res ++ [inl f]).
Proof. exact (resync defs (List.length pre) pre (le_n _)). Qed.
Print Assumptions C101_resync.

(** The server: lost reports, and packets damaged (C100) in the frames that arrive whole, change the session
    to the one with the packets that were neither lost nor damaged. *)
Theorem C101_never_sent rt clock defs spares sent arrived pss fuel fuel2 :
  usable defs -> passes defs sent arrived pss -> List.length arrived < fuel -> List.length arrived < fuel2 ->
  let served := processFrames fuel rt std_registry clock DevGeneral_device
               (hid_transport fuel2 defs spares wire_read wire_write) h0 ((map as_read arrived, []), 0) in
  match conversation rt clock fresh pss with
  | None => served = Some Panic
  | Some (m, fs) =>
      exists st' rest k outs, served = done (st', ((rest, outs), k)) /\ memory_of st' = m /\ departs defs fs outs
  end.
Proof.
  intros U P L L2.
  destruct (passes_arrives defs spares sent arrived pss P [] 0 (conj (Forall_nil _) (Forall_nil _)) (Forall_nil _) (or_introl eq_refl))
    as (pss' & A & E).
  pose proof (C94_wire rt clock defs spares (map as_read arrived) pss' fuel fuel2 U A
                ltac:(rewrite map_length; exact L) ltac:(rewrite map_length; exact L2)) as W.
  rewrite conversation_idle, E, <- conversation_idle in W. exact W.
Qed.
Print Assumptions C101_never_sent.

(** The same with the real buffers, in whatever state. *)
Theorem C101_memory rt clock defs pol m sent arrived pss fuel fuel2 :
  usable defs -> reachable m -> passes defs sent arrived pss -> List.length arrived < fuel -> List.length arrived < fuel2 ->
  let served := processFrames fuel rt std_registry clock DevGeneral_device
               (mem_transport fuel2 defs pol wire_read wire_write) h0 (m, (map as_read arrived, [])) in
  match conversation rt clock fresh pss with
  | None => served = Some Panic
  | Some (mm, fs) =>
      exists st' m' rest outs, served = done (st', (m', (rest, outs))) /\ memory_of st' = mm /\ departs defs fs outs
  end.
Proof.
  intros U R P L L2.
  destruct (processFrames_sim rt std_registry clock DevGeneral_device fuel2 defs pol wire_read wire_write fuel h0 m
              (map as_read arrived, []) (reachable_ok m R)) as [spares E].
  pose proof (C101_never_sent rt clock defs spares sent arrived pss fuel fuel2 U P L L2) as A. cbv zeta in A.
  destruct (conversation rt clock fresh pss) as [[mm fs]|].
  - destruct A as (st' & rest & k & outs & A & M & D).
    match type of E with same_end _ _ ?y => replace y with (done (st', ((rest, outs), k))) in E by (symmetry; exact A) end.
    match type of E with same_end _ ?x _ => destruct x as [[[st2 [m2 d2]]|]|] eqn:X end; try contradiction.
    cbn [same_end done fst snd] in E. destruct E as [-> ->].
    exists st', m2, rest, outs. split; [exact X|]. auto.
  - match type of E with same_end _ _ ?y => replace y with (@Some (outcome (server DevGeneral * (wire * nat))) Panic) in E by (symmetry; exact A) end.
    match type of E with same_end _ ?x _ => destruct x as [[[st2 [m2 d2]]|]|] eqn:X end; try contradiction. exact X.
Qed.
Print Assumptions C101_memory.

(** This is not so when reports between the first and the last are lost: what is left of the frame, [g],
    has the header of a packet and too few bytes for it, and the server crashes (with nothing behind the
    frame in memory; compare C75). *)
Theorem C101_middle_refuted rt clock defs h rs g more fuel fuel2 n hd q :
  carries defs rs g -> g = x55 :: hd ++ q -> header_for n hd -> (len q <= n)%N -> 3 <= List.length (hd ++ q) ->
  0 < fuel -> List.length (rs ++ more) < fuel2 ->
  processFrames fuel rt std_registry clock DevGeneral_device
    (hid_transport fuel2 defs (fun _ => []) wire_read wire_write) h ((map as_read (rs ++ more), []), 0) = Some Panic.
Proof. exact (gap_crashes rt clock defs h rs g more fuel fuel2 hd n q). Qed.
Print Assumptions C101_middle_refuted.

(** Nor when the end of a frame and the start of the next are lost: the two rests are read as one frame.
    Here a request for the serial number and an unknown command make a request for the name, which the
    server answers. *)
Definition part (lc : byte) (data : bytes) : Report := mkReport x09 lc data.
Definition serial_asked := [part x02 [x55; x02; x00]; part x01 [x0b; xf3]].
Definition strange_sent := [part x02 [x55; x03; x00; xff]; part x01 [x07; xf7]].
Definition name_frame : bytes := frame_bytes ([x00; x08] ++ list_byte_of_string "ipod-gadget" ++ [x00]).

Lemma known9 lc data : known DefaultReportDefs (part lc data) (mkDef 9 63 0).
Proof.
  exists (firstn 8 DefaultReportDefs), []. split; [reflexivity|]. split; [reflexivity|].
  repeat (apply Forall_cons; [discriminate|]). apply Forall_nil.
Qed.
Lemma contributes9 lc data : ignored (part lc data) = false -> List.length data <= 62 ->
  contributes DefaultReportDefs (part lc data) data.
Proof.
  intros I L. exists (mkDef 9 63 0). split; [apply known9|]. split; [discriminate|]. rewrite I. cbn [rep_Data part].
  symmetry. now apply firstn_all2.
Qed.
Lemma two_parts a b : 1 <= List.length a <= 62 -> 1 <= List.length b <= 62 ->
  carries DefaultReportDefs [part x02 a; part x01 b] (a ++ b).
Proof.
  intros A B. apply carries_intro with [a; b].
  - exists (part x02 a), [part x01 b]. split; [reflexivity|]. split; [now right|].
    apply Forall_cons; [|apply Forall_nil]. intros [H|H]; discriminate H.
  - exists [part x02 a], (part x01 b). split; [reflexivity|]. split; [now right|].
    apply Forall_cons; [|apply Forall_nil]. intros [H|H]; discriminate H.
  - repeat (apply Forall_cons; [cbn [rep_Data part]; lia|]). apply Forall_nil.
  - repeat (apply Forall2_cons; [apply contributes9; [reflexivity|lia]|]). apply Forall2_nil.
  - cbn [List.concat]. now rewrite app_nil_r.
Qed.

Theorem C101_mixed_refuted :
  exists lost1 lost2 kept1 kept2 f1 f2 st' k outs,
    serial_asked = [kept1; lost1] /\ carries DefaultReportDefs serial_asked f1 /\ stream [[x00; x0b]] f1
    /\ strange_sent = [lost2; kept2] /\ carries DefaultReportDefs strange_sent f2 /\ stream [[x00; xff; x07]] f2
    /\ processFrames 3 true std_registry clock0 DevGeneral_device
         (hid_transport 3 DefaultReportDefs (fun _ => []) wire_read wire_write) h0 ((map as_read [kept1; kept2], []), 0)
       = done (st', (([], outs), k))
    /\ exists id n, outs = [id :: x00 :: name_frame ++ repeat x00 n].
Proof.
  exists (part x01 [x0b; xf3]), (part x02 [x55; x03; x00; xff]), (part x02 [x55; x02; x00]), (part x01 [x07; xf7]).
  exists [x55; x02; x00; x0b; xf3], [x55; x03; x00; xff; x07; xf7].
  assert (K : forall w p h c, w = x55 :: h ++ p ++ [c] -> header_for (len p) h -> (sum_bytes (h ++ p ++ [c]) mod 256 = 0)%N -> stream [p] w).
  { intros w p h c -> H S. replace (x55 :: h ++ p ++ [c]) with ([] ++ (x55 :: h ++ p ++ [c]) ++ []) by (now rewrite app_nil_r).
    apply stream_pkt; [intros []|exists h, c; auto|]. apply stream_end. intros []. }
  do 3 eexists. split; [reflexivity|]. split; [apply (two_parts [x55; x02; x00] [x0b; xf3]); cbn; lia|].
  split; [apply (K _ [x00; x0b] [x02] xf3); [reflexivity|apply header_small; [reflexivity|discriminate]|reflexivity]|].
  split; [reflexivity|]. split; [apply (two_parts [x55; x03; x00; xff] [x07; xf7]); cbn; lia|].
  split; [apply (K _ [x00; xff; x07] [x03] xf7); [reflexivity|apply header_small; [reflexivity|discriminate]|reflexivity]|].
  split; [vm_compute; reflexivity|].
  exists x03, 2. vm_compute. reflexivity.
Qed.
Print Assumptions C101_mixed_refuted.

(** Four frames: a request for the serial number, whole; one for the name whose first report is
    lost; one for the name whose last report is lost; and one with two requests, the first damaged, the second for the name.  The server
    answers the first and the last request only.  Then a request in three reports, the second of which is
    lost. *)
Definition first_sent := serial_asked.
Definition second_sent := [part x02 [x55; x02; x00]; part x01 [x07; xf7]].
Definition fourth_sent := [part x02 [x55; x02; x00; x17; xf7]; part x01 [x00; x55; x02; x00; x07; xf7; x00]].
Definition four_arrived : list Report :=
  first_sent ++ ([] ++ [part x01 [x07; xf7]] ++ ([part x02 [x55; x02; x00]] ++ (fourth_sent ++ []))).
Definition fifth_sent := [part x02 [x55; x08; x00; x15; x00]; part x03 [x00; x00; x00; x00]; part x01 [x00; xe3]].
Definition gapped := [part x02 [x55; x08; x00; x15; x00]; part x01 [x00; xe3]].

Lemma no_start f : existsb (Byte.eqb x55) f = false -> filler f.
Proof.
  intros E I. assert (T : existsb (Byte.eqb x55) f = true) by (apply existsb_exists; exists x55; split; [exact I|reflexivity]).
  congruence.
Qed.
Lemma small_packet p c : (0 < len p < 256)%N -> (sum_bytes ([n2b (len p)] ++ p ++ [c]) mod 256 = 0)%N -> is_packet p (x55 :: [n2b (len p)] ++ p ++ [c]).
Proof.
  intros L S. exists [n2b (len p)], c. split; [reflexivity|]. split; [|exact S].
  apply header_small; [now rewrite b2n_n2b, N.mod_small|lia].
Qed.

Example C101_case :
  passes DefaultReportDefs [first_sent; second_sent; second_sent; fourth_sent] four_arrived [[[x00; x0b]]; [[x00; x07]]]
  /\ usable DefaultReportDefs
  /\ (exists st' k outs, processFrames 9 true std_registry clock0 DevGeneral_device
        (hid_transport 9 DefaultReportDefs (fun _ => []) wire_read wire_write) h0 ((map as_read four_arrived, []), 0)
        = done (st', (([], outs), k))
      /\ map (fun o => firstn 4 (skipn 2 o)) outs = [[x55; x0b; x00; x0c]; [x55; x0e; x00; x08]])
  /\ (exists f, carries DefaultReportDefs fifth_sent f /\ is_packet [x00; x15; x00; x00; x00; x00; x00; x00] f)
  /\ some_of gapped fifth_sent
  /\ carries DefaultReportDefs gapped (x55 :: [x08] ++ [x00; x15; x00; x00; xe3]) /\ header_for 8 [x08].
Proof.
  split; [|split; [exact default_usable|split; [|split; [|split; [|split]]]]].
  - apply (passes_whole _ first_sent [x55; x02; x00; x0b; xf3] [[x00; x0b]]).
    + apply (two_parts [x55; x02; x00] [x0b; xf3]); cbn; lia.
    + change [x55; x02; x00; x0b; xf3] with ([] ++ [x55; x02; x00; x0b; xf3] ++ []).
      apply damaged_whole; [intros []|exact (small_packet [x00; x0b] xf3 ltac:(cbn; lia) eq_refl)|]. apply damaged_end. intros [].
    + apply (passes_headless _ (part x02 [x55; x02; x00]) [] (part x01 [x07; xf7]) [x55; x02; x00; x07; xf7] [] [[x07; xf7]]).
      * apply (two_parts [x55; x02; x00] [x07; xf7]); cbn; lia.
      * apply some_none.
      * cbn [app]. apply Forall2_cons; [apply contributes9; [reflexivity|cbn; lia]|apply Forall2_nil].
      * now apply no_start.
      * apply (passes_unfinished _ [part x02 [x55; x02; x00]] (part x01 [x07; xf7]) [x55; x02; x00; x07; xf7]).
        -- apply (two_parts [x55; x02; x00] [x07; xf7]); cbn; lia.
        -- apply some_kept, some_none.
        -- right. reflexivity.
        -- apply (passes_whole _ fourth_sent [x55; x02; x00; x17; xf7; x00; x55; x02; x00; x07; xf7; x00] [[x00; x07]; [x00; x07]]).
           ++ apply (two_parts [x55; x02; x00; x17; xf7] [x00; x55; x02; x00; x07; xf7; x00]); cbn; lia.
           ++ apply (damaged_lost [] [x00; x07] [x55; x02; x00; x07; xf7] [x55; x02; x00; x17; xf7] _ [x00; x55; x02; x00; x07; xf7; x00]);
                [intros []|exact (small_packet [x00; x07] xf7 ltac:(cbn; lia) eq_refl)| |].
              ** apply (damage_body 2 [x02] [x00] x07 x17 [xf7]);
                   [apply header_small; [reflexivity|discriminate]|reflexivity|discriminate|now apply no_start].
              ** apply (damaged_whole [x00] [x00; x07] [x55; x02; x00; x07; xf7] [] [x00]);
                   [now apply no_start|exact (small_packet [x00; x07] xf7 ltac:(cbn; lia) eq_refl)|].
                 apply damaged_end. now apply no_start.
           ++ apply passes_end.
  - do 3 eexists. split; vm_compute; reflexivity.
  - eexists. split; [|exact (small_packet [x00; x15; x00; x00; x00; x00; x00; x00] xe3 ltac:(cbn; lia) eq_refl)].
    apply carries_intro with [[x55; x08; x00; x15; x00]; [x00; x00; x00; x00]; [x00; xe3]].
    + do 2 eexists. split; [reflexivity|]. split; [now right|].
      repeat (apply Forall_cons; [intros [H|H]; discriminate H|]). apply Forall_nil.
    + exists (firstn 2 fifth_sent), (part x01 [x00; xe3]). split; [reflexivity|]. split; [now right|].
      repeat (apply Forall_cons; [intros [H|H]; discriminate H|]). apply Forall_nil.
    + repeat (apply Forall_cons; [cbn; lia|]). apply Forall_nil.
    + repeat (apply Forall2_cons; [apply contributes9; [reflexivity|cbn; lia]|]). apply Forall2_nil.
    + reflexivity.
  - apply some_kept, some_lost, some_kept, some_none.
  - apply (two_parts [x55; x08; x00; x15; x00] [x00; xe3]); cbn; lia.
  - apply header_small; [reflexivity|discriminate].
Qed.
