(** Property C111: a new start. *)
From Coq Require Import ZifyBool ZifyNat ZifyN Lia.
From Verif Require Import Base BaseFacts GoTypes Types Payload Lingo Command SpecPayload SpecCommand Handlers SpecHandlers HandlersThms
  SpecProtocol Packet SpecPacket Hid SpecHid HidThms Trace SpecTrace Server SpecServer SpecWire ServerThms ProtocolProps
  Mem SpecMem MemThms MemServer ProtocolMore PropProtocol PropMachine SpecRetry RetryThms PropRetry SpecOrder OrderThms SpecRenew RenewThms.
Notation fresh := SpecWire.fresh.
#[local] Opaque std_registry requests.

(** The server on any input: the results of the device's reads. *)
Definition served (rt : bool) (clock : nat -> datetime) (defs : list ReportDef) (spares : nat -> bytes) (fuel : nat) (reads : list raw_read)
  : io (server DevGeneral * (wire * nat)) :=
  processFrames fuel rt std_registry clock DevGeneral_device (hid_transport fuel defs spares wire_read wire_write) h0 ((reads, []), 0).
Definition served_mem (rt : bool) (clock : nat -> datetime) (defs : list ReportDef) (pol : nat -> nat -> nat -> nat) (mm : mem) (fuel : nat)
  (reads : list raw_read) : io (server DevGeneral * (mem * wire)) :=
  processFrames fuel rt std_registry clock DevGeneral_device (mem_transport fuel defs pol wire_read wire_write) h0 (mm, (reads, [])).

(** The reads of an accessory's reports. *)
Definition reads_of (rss : list (list Report)) : list raw_read := map (fun r => (report_bytes r, None)) (List.concat rss).

Lemma served_is rt clock defs spares fuel reads pss : usable defs -> arrives defs spares 0 reads pss -> List.length reads < fuel ->
  match conversation rt clock fresh pss with
  | None => served rt clock defs spares fuel reads = Some Panic
  | Some (m, fs) => exists outs, departs defs fs outs /\ ends_with (served rt clock defs spares fuel reads) m outs
  end.
Proof.
  intros U A L. pose proof (C94_wire rt clock defs spares reads pss fuel fuel U A L L) as W. cbv zeta in W.
  destruct (conversation rt clock fresh pss) as [[m fs]|]; [|exact W].
  destruct W as (st & rest & k & outs & E & M & D). exists outs. split; [exact D|]. exists st, rest, k. auto.
Qed.

(** What the server made of the input before. *)
Lemma served_before rt clock defs spares fuel old m1 o1 : usable defs -> List.length old < fuel ->
  ends_with (served rt clock defs spares fuel old) m1 o1 ->
  exists pss1 fs1, arrives defs spares 0 old pss1 /\ conversation rt clock fresh pss1 = Some (m1, fs1) /\ departs defs fs1 o1.
Proof.
  intros U L (st & rest & k & E & M). destruct (wire_arrives rt clock defs spares fuel U fuel 0 old [] (mkServer false h0) _ sound_init L E) as (pss1 & A).
  pose proof (served_is rt clock defs spares fuel old pss1 U A L) as W. exists pss1.
  destruct (conversation rt clock fresh pss1) as [[m fs]|]; [|rewrite E in W; discriminate W].
  destruct W as (outs & D & st' & rest' & k' & E' & M'). rewrite E in E'. injection E' as <- <- <- <-. exists fs. split; [exact A|]. rewrite <- M, <- M'. auto.
Qed.

Section New.
  Variables (rt : bool) (clock : nat -> datetime) (defs : list ReportDef) (r1 r2 : list Report) (rss : list (list Report)) (p1 p2 : list bytes) (pss : list (list bytes)).
  Hypotheses (U : usable defs) (S : Forall2 (sends defs) (r1 :: r2 :: rss) (p1 :: p2 :: pss)) (X : Exists starts r1).

  Lemma served_joined spares old pss1 fuel : Forall (fun x => ReadReport x <> inr EOF) old -> List.length (old ++ reads_of (r1 :: r2 :: rss)) < fuel ->
    arrives defs spares 0 old pss1 ->
    match conversation rt clock fresh (pss1 ++ p1 :: p2 :: pss) with
    | None => served rt clock defs spares fuel (old ++ reads_of (r1 :: r2 :: rss)) = Some Panic
    | Some (m, fs) => exists outs, departs defs fs outs /\ ends_with (served rt clock defs spares fuel (old ++ reads_of (r1 :: r2 :: rss))) m outs
    end.
  Proof.
    intros N L A. apply served_is; [exact U| |exact L]. inversion S as [|? ? ? ? S1 S2]; subst. now apply arrives_join.
  Qed.
End New.

(** An accessory is connected to a tool that is already running, with any input before, be it garbage or a
    frame broken off; the tool did not crash on it, and ended it in the memory [m1] with [o1] written.  The
    accessory starts identification and leaves the extended mode; then it sends any frames.  Up to the two
    answers, which say whether the tool was in the extended mode, it sees what it would see if the tool
    had just been started: the same reports, up to the time of day, and the same memory. *)
Theorem C111_renewed rt clock defs spares old m1 o1 r1 r2 rss t t' pss fuel :
  usable defs -> Forall (fun x => ReadReport x <> inr EOF) old ->
  Forall2 (sends defs) (r1 :: r2 :: rss) ([start t] :: [leave t'] :: pss) -> Exists starts r1 -> List.length t = 2 -> List.length t' = 2 ->
  List.length (old ++ reads_of (r1 :: r2 :: rss)) < fuel ->
  ends_with (served rt clock defs spares fuel old) m1 o1 ->
  let k := readings m1 in
  let renewed := served rt clock defs spares fuel (old ++ reads_of (r1 :: r2 :: rss)) in
  let as_new := fun spares => session rt (later k clock) defs spares fuel (r1 :: r2 :: rss) in
  renewed = Some Panic /\ (forall spares, as_new spares = Some Panic)
  \/ exists m o o' o2,
       departs defs (start_frames t ++ leave_frames (extended m1) t') o'
       /\ departs defs (start_frames t ++ leave_frames false t') o
       /\ ends_with renewed (shift k m) (o1 ++ o' ++ o2)
       /\ forall spares, ends_with (as_new spares) m (o ++ o2).
Proof.
  intros U N S X T T' L E k renewed as_new.
  assert (L0 : List.length old < fuel) by (rewrite app_length in L; lia).
  assert (L1 : List.length (List.concat (r1 :: r2 :: rss)) < fuel) by (rewrite app_length in L; unfold reads_of in L; rewrite map_length in L; lia).
  destruct (served_before rt clock defs spares fuel old m1 o1 U L0 E) as (pss1 & fs1 & A & C & D1).
  pose proof (served_joined rt clock defs r1 r2 rss _ _ pss U S X spares old pss1 fuel N L A) as J.
  assert (Q : forall sp, _) by (intros sp; exact (session_is rt (later k clock) defs sp fuel _ _ U S L1)).
  pose proof (conversation_renewed rt clock m1 t t' pss T T') as CR. cbv zeta in CR. fold k in CR.
  rewrite conversation_app, C in J. cbv beta in Q.
  destruct (conversation rt (later k clock) (mkMemory true false 0 0) pss) as [[m fs]|]; destruct CR as [CR1 CR2]; rewrite CR1 in J; rewrite CR2 in Q; [right|left; auto].
  destruct J as (outs & DJ & EJ). apply departs_split in DJ as (oa & ob & -> & Da & Db). rewrite app_assoc in Db. apply departs_split in Db as (o' & o2 & -> & Do' & Do2).
  rewrite (departs_unique _ _ _ _ Da D1) in EJ.
  assert (Z : exists o, departs defs (start_frames t ++ leave_frames false t') o).
  { destruct (Q (fun _ => [])) as (outs & D & _). rewrite app_assoc in D. apply departs_split in D as (o & ? & _ & D & _). eauto. }
  destruct Z as (o & Do). exists m, o, o', o2. split; [exact Do'|]. split; [exact Do|]. split; [exact EJ|].
  intros sp. destruct (Q sp) as (outs & D & EQ). rewrite app_assoc in D. pose proof (departs_app _ _ _ _ _ Do Do2) as D'.
  rewrite (departs_unique _ _ _ _ D D') in EQ. exact EQ.
Qed.
Print Assumptions C111_renewed.

(** The same for an accessory that does without transaction numbers, and identifies itself with its lingoes
    instead.  The count is then left as it was, but is seen only if identification is started within a
    frame. *)
Theorem C111_renewed_plain rt clock defs spares old m1 o1 r1 r2 rss c d pss fuel :
  usable defs -> Forall (fun x => ReadReport x <> inr EOF) old ->
  Forall2 (sends defs) (r1 :: r2 :: rss) ([identify_lingoes c d] :: [[x00; x06]] :: pss) -> Exists starts r1 ->
  List.length c = 8 -> List.length d = 4 -> Forall orderly pss ->
  List.length (old ++ reads_of (r1 :: r2 :: rss)) < fuel ->
  ends_with (served rt clock defs spares fuel old) m1 o1 ->
  let k := readings m1 in
  let renewed := served rt clock defs spares fuel (old ++ reads_of (r1 :: r2 :: rss)) in
  let as_new := fun spares => session rt (later k clock) defs spares fuel (r1 :: r2 :: rss) in
  let first := map frame_bytes (ok [] x13 :: asked d) in
  renewed = Some Panic /\ (forall spares, as_new spares = Some Panic)
  \/ exists m m' o o' o2,
       departs defs (first ++ leave_frames (extended m1) []) o'
       /\ departs defs (first ++ leave_frames false []) o
       /\ ends_with renewed m' (o1 ++ o' ++ o2)
       /\ (forall spares, ends_with (as_new spares) m (o ++ o2))
       /\ same_but k m m'.
Proof.
  intros U N S X LC LD O L E k renewed as_new first.
  assert (L0 : List.length old < fuel) by (rewrite app_length in L; lia).
  assert (L1 : List.length (List.concat (r1 :: r2 :: rss)) < fuel) by (rewrite app_length in L; unfold reads_of in L; rewrite map_length in L; lia).
  destruct (served_before rt clock defs spares fuel old m1 o1 U L0 E) as (pss1 & fs1 & A & C & D1).
  pose proof (served_joined rt clock defs r1 r2 rss _ _ pss U S X spares old pss1 fuel N L A) as J.
  assert (Q : forall sp, _) by (intros sp; exact (session_is rt (later k clock) defs sp fuel _ _ U S L1)).
  pose proof (conversation_plain rt clock m1 c d pss LC LD O) as CR. cbv zeta in CR. fold k in CR.
  rewrite conversation_app, C in J. cbv beta in Q.
  destruct CR as [[CR1 CR2]|(m' & m & fs & CR1 & CR2 & SB)]; rewrite CR1 in J; rewrite CR2 in Q; [left; auto|right].
  fold first in J, Q.
  destruct J as (outs & DJ & EJ). apply departs_split in DJ as (oa & ob & -> & Da & Db). rewrite app_assoc in Db. apply departs_split in Db as (o' & o2 & -> & Do' & Do2).
  rewrite (departs_unique _ _ _ _ Da D1) in EJ.
  assert (Z : exists o, departs defs (first ++ leave_frames false []) o).
  { destruct (Q (fun _ => [])) as (outs & D & _). rewrite app_assoc in D. apply departs_split in D as (o & ? & _ & D & _). eauto. }
  destruct Z as (o & Do). exists m, m', o, o', o2. split; [exact Do'|]. split; [exact Do|]. split; [exact EJ|]. split; [|exact SB].
  intros sp. destruct (Q sp) as (outs & D & EQ). rewrite app_assoc in D. pose proof (departs_app _ _ _ _ _ Do Do2) as D'.
  rewrite (departs_unique _ _ _ _ D D') in EQ. exact EQ.
Qed.
Print Assumptions C111_renewed_plain.

(** With the buffers as they are in memory, the old contents of which may have come from the input before:
    if the tool has not crashed, some of what it wrote, [o1], answers the input before, and the rest is what
    a tool would have written that was just started, whatever lies in its memory. *)
Theorem C111_memory rt clock defs pol mm old r1 r2 rss t t' pss fuel mJ outs :
  usable defs -> reachable mm -> Forall (fun x => ReadReport x <> inr EOF) old ->
  Forall2 (sends defs) (r1 :: r2 :: rss) ([start t] :: [leave t'] :: pss) -> Exists starts r1 -> List.length t = 2 -> List.length t' = 2 ->
  List.length (old ++ reads_of (r1 :: r2 :: rss)) < fuel ->
  ends_with_mem (served_mem rt clock defs pol mm fuel (old ++ reads_of (r1 :: r2 :: rss))) mJ outs ->
  exists e k m o1 o o' o2,
    outs = o1 ++ o' ++ o2 /\ mJ = shift k m
    /\ departs defs (start_frames t ++ leave_frames e t') o'
    /\ departs defs (start_frames t ++ leave_frames false t') o
    /\ forall pol' mm', reachable mm' -> ends_with_mem (session_mem rt (later k clock) defs pol' mm' fuel (r1 :: r2 :: rss)) m (o ++ o2).
Proof.
  intros U RM N S X T T' L (st & mm1 & rest & E & M).
  assert (L0 : List.length old < fuel) by (rewrite app_length in L; lia).
  assert (L1 : List.length (List.concat (r1 :: r2 :: rss)) < fuel) by (rewrite app_length in L; unfold reads_of in L; rewrite map_length in L; lia).
  assert (Z : exists spares k, served rt clock defs spares fuel (old ++ reads_of (r1 :: r2 :: rss)) = done (st, ((rest, outs), k))).
  { destruct (processFrames_sim rt std_registry clock DevGeneral_device fuel defs pol wire_read wire_write fuel h0 mm
      (old ++ reads_of (r1 :: r2 :: rss), []) (reachable_ok mm RM)) as [spares SI].
    exists spares. match type of SI with same_end _ ?x _ => replace x with (done (st, (mm1, (rest, outs)))) in SI by (symmetry; exact E) end.
    match type of SI with same_end _ _ ?y => destruct y as [[[st2 [d2 k]]|]|] eqn:Y end; try contradiction.
    cbn [same_end done fst snd] in SI. destruct SI as [<- <-]. exists k. exact Y. }
  destruct Z as (spares & kk & EJ).
  destruct (wire_arrives rt clock defs spares fuel U fuel 0 _ [] (mkServer false h0) _ sound_init L EJ) as (pssJ & AJ).
  destruct (arrives_prefix _ _ _ _ _ AJ old _ eq_refl) as (pss1 & A).
  pose proof (served_joined rt clock defs r1 r2 rss _ _ pss U S X spares old pss1 fuel N L A) as J. rewrite conversation_app in J.
  destruct (conversation rt clock fresh pss1) as [[m1 fs1]|]; [|rewrite EJ in J; discriminate J].
  pose proof (conversation_renewed rt clock m1 t t' pss T T') as CR. cbv zeta in CR. set (k := readings m1) in *.
  destruct (conversation rt (later k clock) (mkMemory true false 0 0) pss) as [[m fs]|]; destruct CR as [CR1 CR2]; rewrite CR1 in J; [|rewrite EJ in J; discriminate J].
  destruct J as (outs' & DJ & st' & rest' & k' & EJ' & M'). rewrite EJ in EJ'. injection EJ' as <- <- <- <-.
  apply departs_split in DJ as (o1 & ob & -> & Da & Db). rewrite app_assoc in Db. apply departs_split in Db as (o' & o2 & -> & Do' & Do2).
  assert (Z : exists o, departs defs (start_frames t ++ leave_frames false t') o).
  { pose proof (session_is rt (later k clock) defs (fun _ => []) fuel _ _ U S L1) as Q. rewrite CR2 in Q. destruct Q as (outs & D & _).
    rewrite app_assoc in D. apply departs_split in D as (o & ? & _ & D & _). eauto. }
  destruct Z as (o & Do). exists (extended m1), k, m, o1, o, o', o2. split; [reflexivity|]. split; [congruence|]. split; [exact Do'|]. split; [exact Do|].
  intros pol' mm' RM'. pose proof (session_mem_is rt (later k clock) defs pol' mm' fuel _ _ U RM' S L1) as Q. rewrite CR2 in Q. destruct Q as (outs & D & EQ).
  rewrite app_assoc in D. pose proof (departs_app _ _ _ _ _ Do Do2) as D'. rewrite (departs_unique _ _ _ _ D D') in EQ. exact EQ.
Qed.
Print Assumptions C111_memory.

#[local] Transparent std_registry requests.

(** An accessory with numbers ended its identification, which took the number 1, entered the extended mode,
    asked for the time, and was pulled off within a frame; what follows is garbage and a read error.  The
    next one starts anew. *)
Definition cut : raw_read := ([x09; x02; x55; x04; x00], None).
Definition before : list raw_read :=
  reads_of [request_of [x00; x38; x00; x01]; request_of [x00; x3b; x00; x02; x00]; request_of [x00; x05; x00; x03]; request_of [x03; x0c; x00; x04; x09]]
  ++ [([x77; x00; x55], None); ([], Some UnexpectedEOF); cut].
Definition anew : list (list Report) :=
  [request_of (start [x00; x01]); request_of (leave [x00; x02]); request_of [x00; x03; x00; x03]; request_of [x03; x0c; x00; x04; x09]; request_of [x00; x3b; x00; x05; x00]].

Example C111_case :
  usable DefaultReportDefs /\ Forall (fun x => ReadReport x <> inr EOF) before
  /\ Forall2 (sends DefaultReportDefs) anew [[start [x00; x01]]; [leave [x00; x02]]; [[x00; x03; x00; x03]]; [[x03; x0c; x00; x04; x09]]; [[x00; x3b; x00; x05; x00]]]
  /\ Exists starts (request_of (start [x00; x01]))
  /\ exists o1 a w l b c d e,
       ends_with (served true clock_ticking DefaultReportDefs (fun _ => []) 20 before) (mkMemory true true 1 1) o1
       /\ ends_with (served true clock_ticking DefaultReportDefs (fun _ => []) 20 (before ++ reads_of anew)) (mkMemory true false 1 2) (o1 ++ [a; w; l; b; c; d; e])
       /\ ends_with (session true (later 1 clock_ticking) DefaultReportDefs (fun _ => []) 20 anew) (mkMemory true false 1 1) [a; l; b; c; d; e].
Proof.
  split; [exact default_usable|]. split; [|split; [|split]].
  - repeat (apply Forall_cons; [vm_compute; discriminate|]). apply Forall_nil.
  - repeat (apply Forall2_cons; [apply request_sent; [split; vm_compute; (reflexivity || discriminate || (split; discriminate))|vm_compute; lia]|]). apply Forall2_nil.
  - left. left. reflexivity.
  - do 8 eexists. split; [|split]; do 3 eexists; (split; [vm_compute; reflexivity|vm_compute; reflexivity]).
Qed.

(** Finding: without the condition on frames, an accessory without numbers does see the count of the one
    before.  A frame ends identification, which asks a question, and starts it again; as the mode at the
    end of a frame decides, the question is sent with a number, which is 2 and not 1. *)
Definition plain_anew : list (list Report) :=
  [request_of (identify_lingoes (repeat x00 8) (repeat x00 4)); request_of [x00; x06]; [mkReport x09 x00 (frame_with [[x00; x3b; x00]; [x00; x38; x00; x01]])]].
Theorem C111_number_refuted :
  ~ orderly [[x00; x3b; x00]; [x00; x38; x00; x01]]
  /\ exists o1 w a b c d,
       ends_with (served true clock_ticking DefaultReportDefs (fun _ => []) 20 before) (mkMemory true true 1 1) o1
       /\ ends_with (served true clock_ticking DefaultReportDefs (fun _ => []) 20 (before ++ reads_of plain_anew)) (mkMemory true false 0 1)
            (o1 ++ [a; w; b; c; x01 :: x00 :: frame_bytes [x00; x14; x00; x02] ++ repeat x00 4; d])
       /\ ends_with (session true (later 1 clock_ticking) DefaultReportDefs (fun _ => []) 20 plain_anew) (mkMemory true false 0 0)
            [a; b; c; x01 :: x00 :: frame_bytes [x00; x14; x00; x01] ++ repeat x00 4; d].
Proof.
  split; [intros [_ O]; inversion O as [|? ? Q]; apply Q; eexists; reflexivity|].
  do 6 eexists. split; [|split]; do 3 eexists; (split; [vm_compute; reflexivity|vm_compute; reflexivity]).
Qed.
Print Assumptions C111_number_refuted.

Example C111_plain_case :
  Forall2 (sends DefaultReportDefs) [request_of (identify_lingoes (repeat x00 8) [x00; x00; x02; x00]); request_of [x00; x06]; request_of [x00; x3b; x00]]
    [[identify_lingoes (repeat x00 8) [x00; x00; x02; x00]]; [[x00; x06]]; [[x00; x3b; x00]]]
  /\ orderly [[x00; x3b; x00]] /\ orderly [start [x00; x01]; [x00; x07; x00; x02]]
  /\ same_but 1 (mkMemory false false 1 0) (mkMemory false false 2 1).
Proof.
  split; [|split; [|split]].
  - repeat (apply Forall2_cons; [apply request_sent; [split; vm_compute; (reflexivity || discriminate || (split; discriminate))|vm_compute; lia]|]). apply Forall2_nil.
  - split; [discriminate|apply Forall_nil].
  - split; [discriminate|]. apply Forall_cons; [intros (b & Q); discriminate Q|apply Forall_nil].
  - repeat split. discriminate.
Qed.
