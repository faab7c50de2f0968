(** Property C99: talking to the server over HID is calling its handlers. *)
From Coq Require Import ZifyBool ZifyNat ZifyN Lia.
From Verif Require Import Base BaseFacts GoTypes Types Payload Lingo Command SpecPayload SpecCommand LingoFacts CommandThms Handlers SpecHandlers
  Packet SpecPacket ClientPacket Hid SpecHid HidThms Trace SpecTrace Server SpecServer SpecWire SpecRead SpecDialogue DialogueThms Mem SpecMem MemThms MemServer.

(** ** C99 *)

(** An accessory encodes commands with the library and writes them to the device; the server reads,
    handles and answers them; the accessory reads the reports of the server with the library.  It gets, for
    every command in turn, what the handlers write when they are called with that command. *)
Theorem C99_dialogue rt clock defs spares cs h :
  usable defs -> Forall (fun d => def_Len d <= 1023)%Z defs -> (dg_uimode (h_dev h) <= 1)%N -> all_proper rt false cs ->
  exists sents, transmits rt defs false cs sents /\ forall fuel fuel2,
    List.length (List.concat sents) < fuel -> List.length (List.concat sents) < fuel2 ->
    exists st' k replies outss,
      processFrames fuel rt std_registry clock DevGeneral_device (hid_transport fuel2 defs spares wire_read wire_write)
        h ((as_reads (List.concat sents), []), 0) = done (st', (([], List.concat outss), k))
      /\ in_turn clock DevGeneral_device h cs replies (sv_h st')
      /\ listens rt defs false cs replies outss.
Proof.
  intros U SZ Hu A. destruct (dialogue_run rt clock defs spares cs U SZ false A) as (sents & T & K).
  exists sents. split; [exact T|]. intros fuel fuel2 L L2.
  destruct (K (mkServer false h) fuel fuel2 [] 0 eq_refl Hu L L2) as (st' & k & replies & outss & E & I & _ & Li).
  exists st', k, replies, outss. auto.
Qed.
Print Assumptions C99_dialogue.

(** The same with the server's real buffers, in whatever state earlier use has left them and however they
    grow. *)
Theorem C99_memory rt clock defs pol m cs h sents fuel fuel2 :
  usable defs -> Forall (fun d => def_Len d <= 1023)%Z defs -> (dg_uimode (h_dev h) <= 1)%N -> all_proper rt false cs -> reachable m ->
  transmits rt defs false cs sents -> List.length (List.concat sents) < fuel -> List.length (List.concat sents) < fuel2 ->
  exists st' m' replies outss,
    processFrames fuel rt std_registry clock DevGeneral_device (mem_transport fuel2 defs pol wire_read wire_write)
      h (m, (as_reads (List.concat sents), [])) = done (st', (m', ([], List.concat outss)))
    /\ in_turn clock DevGeneral_device h cs replies (sv_h st')
    /\ listens rt defs false cs replies outss.
Proof.
  intros U SZ Hu A R T L L2.
  destruct (processFrames_sim rt std_registry clock DevGeneral_device fuel2 defs pol wire_read wire_write fuel h m
              (as_reads (List.concat sents), []) (reachable_ok m R)) as [spares E].
  destruct (C99_dialogue rt clock defs spares cs h U SZ Hu A) as (sents' & T' & K).
  rewrite (transmits_fun rt defs _ _ _ T' _ T) in K. destruct (K fuel fuel2 L L2) as (st' & k & replies & outss & B & I & Li).
  match type of E with same_end _ _ ?y => replace y with (done (st', ((([], List.concat outss) : wire), k))) in E by (symmetry; exact B) end.
  match type of E with same_end _ ?x _ => destruct x as [[[st2 [m2 d2]]|]|] eqn:X end; try contradiction.
  cbn [same_end done fst snd] in E. destruct E as [-> ->]. exists st', m2, replies, outss. split; [exact X|]. auto.
Qed.
Print Assumptions C99_memory.

(** The start of identification, a request for the name, one for the focused application, whose answer has
    no wire form, and one for the name again; their reports, and the name that the accessory reads at last. *)
Definition clock0 : nat -> datetime := fun _ => (2024, 5, 17, 12, 30)%N.
Definition h0 : hstate DevGeneral := mkH DevGeneral_init [] 0 0 [].
Definition four_requests : list command :=
  [mkCmd 56 (Some 1%N) (Some (Pst general_StartIDPS [])); mkCmd 7 (Some 2%N) (Some (Pst general_RequestiPodName []));
   mkCmd 101 (Some 3%N) (Some (Pst general_GetNowPlayingFocusApp [])); mkCmd 7 (Some 4%N) (Some (Pst general_RequestiPodName []))].
Definition four_reports : list bytes :=
  map (fun r => [x01; x00] ++ r ++ repeat x00 4)
    [[x55; x04; x00; x38; x00; x01; xc3]; [x55; x04; x00; x07; x00; x02; xf3];
     [x55; x04; x00; x65; x00; x03; x94]; [x55; x04; x00; x07; x00; x04; xf1]].
Definition name_of (c : command) : option (N * option N * bytes) :=
  match c with mkCmd id tr (Some (Pst general_ReturniPodName [VBytes b])) => Some (id, tr, b) | _ => None end.

Lemma proper_simple rt e id tr t n :
  id_of std_registry t = Some id -> fixed_size t n -> typed t [] -> t <> general_ACKDataDropped -> u16 tr -> mode_after e [id] = true ->
  (forall b, MarshalCmd rt e (mkCmd id (Some tr) (Some (Pst t []))) = Ret (true, Ok b) -> writable b) ->
  proper rt e (mkCmd id (Some tr) (Some (Pst t []))).
Proof.
  intros I F T N Ut M W. split; [|split; [|split]].
  - exists (Pst t []), t. split; [reflexivity|]. split; [reflexivity|]. split; [now apply id_of_in|]. right. exists [], n. auto.
  - intros x E. injection E as <-. exact Ut.
  - split; [intros _; exact M|discriminate].
  - cbn [cmd_id]. rewrite M. exact W.
Qed.

Example C99_case :
  all_proper true false four_requests
  /\ usable DefaultReportDefs /\ Forall (fun d => def_Len d <= 1023)%Z DefaultReportDefs
  /\ transmits true DefaultReportDefs false four_requests (map (fun r => [r]) four_reports)
  /\ exists st' k outs rest g1 g2 g3 p,
       processFrames 5 true std_registry clock0 DevGeneral_device
         (hid_transport 5 DefaultReportDefs (fun _ => []) wire_read wire_write) h0 ((as_reads four_reports, []), 0)
       = done (st', (([], outs), k))
       /\ read_frames 3 DefaultReportDefs [] (map ReadReport (as_reads outs)) = Ret (rest, [inl g1; inl g2; inl g3])
       /\ read_n 2 (mkSlice g3 []) = Ret (mkSlice [] [], [(p, None); ([], Some EOF)])
       /\ (exists c, UnmarshalCmd true std_registry true p = Ret (true, c, None)
             /\ name_of c = Some (8%N, Some 4%N, list_byte_of_string "ipod-gadget" ++ [x00])).
Proof.
  split; [|split; [exact default_usable|split; [|split]]].
  - split; [|split; [|split; [|split; [|exact I]]]];
      (eapply proper_simple; [reflexivity|reflexivity|reflexivity|discriminate|reflexivity|reflexivity|];
       intros b E; vm_compute in E; injection E as <-; (split; [split; vm_compute; discriminate|vm_compute; discriminate])).
  - repeat (apply Forall_cons; [cbn; lia|]). apply Forall_nil.
  - repeat (eapply transmits_one; [vm_compute; reflexivity|vm_compute; reflexivity|vm_compute; reflexivity|]). apply transmits_none.
  - do 8 eexists. split; [vm_compute; reflexivity|]. split; [vm_compute; reflexivity|]. split; [vm_compute; reflexivity|].
    eexists. split; vm_compute; reflexivity.
Qed.
