(** Property C122: replies that are not taken. *)
From Coq Require Import ZifyBool ZifyNat ZifyN Lia.
From Verif Require Import Mem SpecMem MemFacts MemThms MemServer Base BaseFacts GoTypes Types Payload Lingo Command SpecPayload SpecCommand Handlers SpecHandlers HandlersThms
  SpecProtocol Packet SpecPacket PacketThms Hid SpecHid HidThms HidPacketThms Server SpecServer ServerFacts ServerThms SpecPlug SpecTransport TransportThms PropTransport SpecWire ProtocolProps PropProtocol
  SpecRetry RetryThms PropRetry SpecRenew PropRenew SpecLoss SpecReact ReactThms PropReact SpecRefuse RefuseThms.

(** The server on a device file that takes or refuses each report as it likes: the session is that on a device file that
    gives the same reads and takes everything - same end of the server, with any device behind it, and same crash.  What is
    written there as frames is tried here: a frame up to its first report that is refused, and every frame, whatever became
    of those before.  Whenever the next read is due, that much was tried of all the server has to say to what was read
    before. *)
Theorem C122_server {D S} (a : chooser D) rt clock (dev : DeviceGeneral S) h defs spares d fuel fuel2 :
  usable defs -> plausible a ->
  let run_ch := processFrames fuel rt std_registry clock dev (hid_transport fuel2 defs spares (ch_read a) (ch_write a)) h (d, 0) in
  let run_all l := processFrames fuel rt std_registry clock dev (hid_transport fuel2 defs spares wire_read wire_write) h ((l, []), 0) in
  run_ch = None
  \/ exists evs d', happens a d evs d'
     /\ match run_ch with
        | Some (Ret (st, (d1, n))) => d1 = d' /\ exists outs fs whole, run_all (reads evs) = done (st, (([], outs), n))
                                                 /\ departs defs fs outs /\ tries defs fs (writes evs) whole
        | _ => run_ch = Some Panic /\ run_all (reads evs) = Some Panic
        end
     /\ forall e1 x e2, evs = e1 ++ Read x :: e2 -> exists st n outs fs whole, run_all (reads e1) = done (st, (([], outs), n))
                                                 /\ departs defs fs outs /\ tries defs fs (writes e1) whole.
Proof.
  intros U P. cbv zeta.
  pose proof (C118_same rt clock dev aside _ _ h (d, 0) ((d, false), 0) fuel (patient_carries a P defs U fuel2 spares) (conj eq_refl eq_refl)) as K.
  assert (T : forall st n evs hs k, processFrames fuel rt std_registry clock dev (hid_transport fuel2 defs spares wire_read wire_write) h ((sent evs, []), 0) = done (st, (([], got evs), n)) ->
            mapped k evs hs -> exists outs fs whole,
              processFrames fuel rt std_registry clock dev (hid_transport fuel2 defs spares wire_read wire_write) h ((reads hs, []), 0) = done (st, (([], outs), n))
              /\ departs defs fs outs /\ tries defs fs (writes hs) whole).
  { intros st n evs hs k E M. rewrite (mapped_reads _ _ _ M). destruct (loop_departs rt clock dev defs U spares fuel2 fuel _ _ _ _ _ _ _ _ E) as (fs & outs & DP & Q).
    cbn [app] in Q. rewrite <- Q in DP. destruct (departs_tries defs fs _ DP k _ (mapped_writes _ _ _ M)) as (whole & T). exists (got evs), fs, whole. auto. }
  destruct (C121_reacts (patient a) rt std_registry clock dev h defs spares (d, false) fuel fuel2 U) as [N|(evs & s' & E & R & PR)].
  { rewrite N in K. unfold compare in K. left. destruct (processFrames fuel rt std_registry clock dev _ h (d, 0)) as [[?|]|]; [contradiction..|reflexivity]. }
  right. destruct (exchange_mapped a _ _ _ E) as (hs & H & M). cbn [fst snd] in H, M. exists hs, (fst s'). split; [exact H|]. split.
  - unfold compare in K.
    destruct (processFrames fuel rt std_registry clock dev (hid_transport fuel2 defs spares (ch_read a) (ch_write a)) h (d, 0)) as [[[st [d1 n]]|]|];
    destruct (processFrames fuel rt std_registry clock dev (hid_transport fuel2 defs spares (acc_read (patient a)) (acc_write (patient a))) h ((d, false), 0)) as [[[st2 [d2 n2]]|]|];
      try contradiction.
    + destruct K as [K1 [K2 K3]]. cbn [fst snd] in *. subst st2 n2. destruct R as [-> R]. split; [congruence|]. exact (T _ _ _ _ _ R M).
    + split; [reflexivity|]. rewrite (mapped_reads _ _ _ M). apply R.
    + destruct R as [R _]. discriminate R.
  - intros e1 x e2 Q. destruct (mapped_split _ _ _ M e1 x e2 Q) as (f1 & f2 & F & M1). destruct (PR f1 x f2 F) as (st & n & X).
    destruct (T _ _ _ _ _ X M1) as (outs & fs & whole & Y). exists st, n, outs, fs, whole. exact Y.
Qed.
Print Assumptions C122_server.

(** With the tool's device: whenever the next read is due, the frames tried are the machine's answers (C93) to the packets
    that have arrived by then. *)
Theorem C122_machine {D} (a : chooser D) rt clock defs spares d fuel :
  usable defs -> plausible a ->
  let run_ch := processFrames fuel rt std_registry clock DevGeneral_device (hid_transport fuel defs spares (ch_read a) (ch_write a)) h0 (d, 0) in
  run_ch = None
  \/ exists evs d', happens a d evs d'
     /\ forall e1 x e2, evs = e1 ++ Read x :: e2 -> List.length (reads e1) < fuel ->
          exists pss m fs whole, arrives defs spares 0 (reads e1) pss /\ conversation rt clock fresh pss = Some (m, fs) /\ tries defs fs (writes e1) whole.
Proof.
  intros U P run_ch.
  pose proof (C118_same rt clock DevGeneral_device aside _ _ h0 (d, 0) ((d, false), 0) fuel (patient_carries a P defs U fuel spares) (conj eq_refl eq_refl)) as K.
  destruct (C121_machine (patient a) rt clock defs spares (d, false) fuel U) as [N|(evs & s' & E & PR)].
  { left. unfold run_ch. rewrite N in K. unfold compare in K. destruct (processFrames fuel rt std_registry clock DevGeneral_device _ h0 (d, 0)) as [[?|]|]; [contradiction..|reflexivity]. }
  right. destruct (exchange_mapped a _ _ _ E) as (hs & H & M). cbn [fst snd] in H, M. exists hs, (fst s'). split; [exact H|].
  intros e1 x e2 Q L. destruct (mapped_split _ _ _ M e1 x e2 Q) as (f1 & f2 & F & M1). rewrite (mapped_reads _ _ _ M1) in *.
  destruct (PR f1 x f2 F L) as (pss & m & fs & A & C & DP). destruct (departs_tries defs fs _ DP _ _ (mapped_writes _ _ _ M1)) as (whole & T).
  exists pss, m, fs, whole. auto.
Qed.
Print Assumptions C122_machine.

(** The same with the buffers the program has, in whatever state. *)
Theorem C122_memory {D S} (a : chooser D) rt clock (dev : DeviceGeneral S) h defs pol mm d fuel fuel2 :
  usable defs -> plausible a -> reachable mm ->
  let run_ch := processFrames fuel rt std_registry clock dev (mem_transport fuel2 defs pol (ch_read a) (ch_write a)) h (mm, d) in
  run_ch = None
  \/ exists spares evs d', happens a d evs d'
     /\ let run_all l := processFrames fuel rt std_registry clock dev (hid_transport fuel2 defs spares wire_read wire_write) h ((l, []), 0) in
        match run_ch with
        | Some (Ret (st, (_, d1))) => d1 = d' /\ exists n outs fs whole, run_all (reads evs) = done (st, (([], outs), n))
                                                 /\ departs defs fs outs /\ tries defs fs (writes evs) whole
        | _ => run_ch = Some Panic /\ run_all (reads evs) = Some Panic
        end
     /\ forall e1 x e2, evs = e1 ++ Read x :: e2 -> exists st n outs fs whole, run_all (reads e1) = done (st, (([], outs), n))
                                                 /\ departs defs fs outs /\ tries defs fs (writes e1) whole.
Proof.
  intros U PL R. cbv zeta.
  destruct (processFrames_sim rt std_registry clock dev fuel2 defs pol (ch_read a) (ch_write a) fuel h mm d (reachable_ok mm R)) as [spares E].
  change (same_end (fun w v => snd w = fst v) (processFrames fuel rt std_registry clock dev (mem_transport fuel2 defs pol (ch_read a) (ch_write a)) h (mm, d))
            (processFrames fuel rt std_registry clock dev (hid_transport fuel2 defs spares (ch_read a) (ch_write a)) h (d, 0))) in E.
  destruct (C122_server a rt clock dev h defs spares d fuel fuel2 U PL) as [N|(evs & d' & EX & B & P)].
  - left. rewrite N in E. match type of E with same_end _ ?x _ => destruct x as [[[? ?]|]|] end; [contradiction..|reflexivity].
  - right. exists spares, evs, d'. split; [exact EX|]. split; [|exact P].
    destruct (processFrames fuel rt std_registry clock dev (hid_transport fuel2 defs spares (ch_read a) (ch_write a)) h (d, 0)) as [[[st [d1 n]]|]|];
      match type of E with same_end _ ?x _ => destruct x as [[[st2 [m2 d2]]|]|] end; try contradiction.
    + cbn [same_end fst snd] in E. destruct E as [-> ->]. destruct B as [-> B]. split; [reflexivity|]. exists n. exact B.
    + split; [reflexivity|]. apply B.
    + destruct B as [B _]. discriminate B.
Qed.
Print Assumptions C122_memory.

(** Where the reports taken are read with the library, exactly the frames that were taken whole come out, in order, padded
    at most; the beginnings of the others leave no trace.  So a refused report costs its own reply and no other. *)
Theorem C122_read defs fs ws whole :
  usable defs -> tries defs fs ws whole ->
  some_of whole fs /\ exists rs frames, taken ws = map report_bytes rs /\ Forall2 (padded defs) whole frames
    /\ forall buf, read_frames (S (List.length whole)) defs buf (map inl rs) = Ret ([], map inl frames ++ [inr EOF]).
Proof.
  intros U T. split; [induction T; now constructor|]. destruct (taken_read defs U fs ws whole T) as (rs & frames & E & F & R).
  exists rs, frames. split; [exact E|]. split; [exact F|]. intros buf. exact (R [] buf ltac:(constructor) ltac:(constructor)).
Qed.
Print Assumptions C122_read.

(** If nothing is refused, nothing is lost. *)
Theorem C122_taken defs fs ws whole :
  tries defs fs ws whole -> (forall p, ~ In (Refused p) ws) -> whole = filter (fun f => match f with [] => false | _ => true end) fs /\ departs defs fs (taken ws).
Proof.
  induction 1 as [|fs ws whole _ IH|f rs fs ws whole G _ IH|f a r b fs ws whole G _ IH]; intros N.
  - split; [reflexivity|constructor].
  - destruct (IH N) as [-> DP]. split; [reflexivity|now constructor].
  - destruct IH as [-> DP]; [intros p I; apply (N p); apply in_or_app; now right|]. split.
    + destruct f; [|reflexivity]. exfalso. inversion G; subst; [congruence|]. destruct chunk; [congruence|discriminate].
    + rewrite taken_app, taken_map. now constructor.
  - exfalso. apply (N (report_bytes r)). apply in_or_app. right. now left.
Qed.
Print Assumptions C122_taken.

(** Three times the name is asked for, over a table with small reports, and the second and the third write are refused, the third with
    one byte fewer taken than given. *)
Definition small : list ReportDef := [mkDef 1 9 0].
Definition choosy : chooser (nat * nat) := mkChooser
  (fun s : nat * nat => ((pred (fst s), snd s), match fst s with O => ([], Some EOF) | _ => (report_bytes (mkReport x01 x00 (frame_with [[x00; x07]])), @None goerr) end))
  (fun (s : nat * nat) p => ((fst s, Datatypes.S (snd s)), match snd s with 1 => (0, Some (ErrMsg "busy")) | 2 => (pred (List.length p), None) | _ => (List.length p, None) end)).

Definition ran122 := processFrames 9 true std_registry clock_ticking DevGeneral_device
  (hid_transport 9 small (fun _ => []) (ch_read choosy) (ch_write choosy)) h0 ((3, 0), 0).

Definition name_answer : bytes := frame_bytes ([x00; x08] ++ list_byte_of_string "ipod-gadget" ++ [x00]).
Definition n1 := mkReport x01 x02 (firstn 8 name_answer).
Definition n2 := mkReport x01 x03 (firstn 8 (skipn 8 name_answer)).
Definition n3 := mkReport x01 x01 (skipn 16 name_answer ++ repeat x00 7).
Definition asks : raw_read := (report_bytes (mkReport x01 x00 (frame_with [[x00; x07]])), None).
Definition events122 : list happened :=
  [Read asks; Taken (report_bytes n1); Refused (report_bytes n2);
   Read asks; Refused (report_bytes n1);
   Read asks; Taken (report_bytes n1); Taken (report_bytes n2); Taken (report_bytes n3);
   Read ([], Some EOF)].

Lemma small_usable : usable small.
Proof.
  split; [repeat constructor; cbn; tauto|]. split; [repeat constructor; cbn; lia|]. exists (mkDef 1 9 0). split; [|cbn; lia].
  exists [], []. repeat split; constructor.
Qed.

Lemma name_cut : segments small true name_answer [n1; n2; n3].
Proof.
  assert (C : forall n, choice small 0 n (mkDef 1 9 0)).
  { intros n. destruct (n + 1 <=? 9)%Z eqn:E.
    - left. exists [], []. repeat split; [cbn; lia|constructor].
    - right. split; [repeat constructor; intros [_ H]; cbn in H; lia|]. exists [], []. repeat split; constructor. }
  apply (seg_more small true (firstn 8 name_answer) (skipn 8 name_answer) (mkDef 1 9 0) [n2; n3]); [vm_compute; discriminate|apply C|reflexivity|vm_compute; discriminate|].
  apply (seg_more small false (firstn 8 (skipn 8 name_answer)) (skipn 16 name_answer) (mkDef 1 9 0) [n3]); [vm_compute; discriminate|apply C|reflexivity|vm_compute; discriminate|].
  apply (seg_last small false (skipn 16 name_answer) (mkDef 1 9 0)); [vm_compute; discriminate|apply C|vm_compute; lia].
Qed.

Example C122_case :
  usable small /\ plausible choosy /\ (exists st outs, ran122 = done (st, ((0, 6), 4))
    /\ served true clock_ticking small (fun _ => []) 9 (reads events122) = done (st, (([], outs), 4)) /\ departs small [name_answer; name_answer; name_answer] outs)
  /\ happens choosy (3, 0) events122 (0, 6)
  /\ tries small [name_answer; name_answer; name_answer] (writes events122) [name_answer]
  /\ exists m, conversation true clock_ticking fresh [[[x00; x07]]; [[x00; x07]]; [[x00; x07]]] = Some (m, [name_answer; name_answer; name_answer]).
Proof.
  split; [exact small_usable|]. split; [|split; [|split; [|split]]].
  - intros [x [|[|[|k]]]] p; cbn; lia.
  - exists (match ran122 with Some (Ret (st, _)) => st | _ => mkServer false h0 end), (map report_bytes ([n1; n2; n3] ++ [n1; n2; n3] ++ [n1; n2; n3])).
    split; [vm_compute; reflexivity|]. split; [vm_compute; reflexivity|]. pose proof name_cut as C.
    rewrite !map_app. rewrite <- (app_nil_r (map report_bytes [n1; n2; n3] ++ _)), <- !app_assoc. repeat (apply departs_frame; [exact C|]). constructor.
  - apply (hp_read choosy (3, 0)). cbn [ch_sends choosy fst snd pred]. apply hp_taken; [reflexivity|]. apply hp_refused; [discriminate|].
    apply (hp_read choosy (2, 2)). cbn [ch_sends choosy fst snd pred]. apply hp_refused; [vm_compute; discriminate|].
    apply (hp_read choosy (1, 3)). cbn [ch_sends choosy fst snd pred]. do 3 (apply hp_taken; [reflexivity|]).
    apply (hp_read choosy (0, 6)). apply hp_end.
  - pose proof name_cut as C. cbn [writes events122 filter].
    apply (tries_broken small name_answer [n1] n2 [n3]); [exact C|]. apply (tries_broken small name_answer [] n1 [n2; n3]); [exact C|].
    apply (tries_whole small name_answer [n1; n2; n3] [] []); [exact C|]. constructor.
  - eexists. vm_compute. reflexivity.
Qed.

(** Finding: a reply that was refused is not sent again, not even when the device file takes everything from then on: the accessory
    above, which asked three times, gets one answer. *)
Theorem C122_again_refuted :
  exists frames, read_frames 2 small [] (map inl [n1; n1; n2; n3]) = Ret ([], [inl frames; inr EOF]) /\ padded small name_answer frames
    /\ taken events122 = map report_bytes [n1; n1; n2; n3] /\ List.length (filter (fun e => match e with Read (_ :: _, _) => true | _ => false end) events122) = 3.
Proof.
  exists (name_answer ++ repeat x00 7). split; [vm_compute; reflexivity|]. split; [|split; vm_compute; reflexivity].
  exists 7, (mkDef 1 9 0). repeat split; [left; reflexivity|vm_compute; lia].
Qed.
Print Assumptions C122_again_refuted.
