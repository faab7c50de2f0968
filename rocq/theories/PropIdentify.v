(** Property C110: identification and authentication over the wire. *)
From Coq Require Import ZifyBool ZifyNat ZifyN Lia.
From Verif Require Import Base BaseFacts GoTypes Types Payload Lingo Command SpecPayload SpecCommand Handlers SpecHandlers HandlersThms
  SpecProtocol Packet SpecPacket Hid SpecHid HidThms Trace SpecTrace Server SpecServer SpecWire ServerThms ProtocolProps
  Mem SpecMem MemThms MemServer ProtocolMore PropProtocol PropMachine SpecRetry RetryThms PropRetry SpecOrder OrderThms SpecIdentify IdentifyThms.
Notation fresh := SpecWire.fresh.
#[local] Opaque std_registry requests.

(** The certificates the device was given in a session, in order. *)
Definition certificates_given (st : server DevGeneral) : list bytes := certs (h_log (sv_h st)).

Lemma session_told rt clock defs spares rss pss fuel st w :
  usable defs -> Forall2 (sends defs) rss pss -> List.length (List.concat rss) < fuel ->
  session rt clock defs spares fuel rss = done (st, w) -> told rt clock (mkServer false h0) st (List.concat pss).
Proof.
  intros U S L. apply (wire_told rt clock defs spares _ pss 0 U (sent_arrives defs spares rss pss S 0)); [exact N.le_0_1|rewrite map_length; exact L..].
Qed.

(** With the real buffers, the server ends in a state in which it may end with some contents of memory. *)
Lemma session_mem_some rt clock defs pol mm rss fuel st mm' d :
  reachable mm -> session_mem rt clock defs pol mm fuel rss = done (st, (mm', d)) ->
  exists spares k, session rt clock defs spares fuel rss = done (st, (d, k)).
Proof.
  intros R E.
  destruct (processFrames_sim rt std_registry clock DevGeneral_device fuel defs pol wire_read wire_write fuel h0 mm
    (map (fun r => (report_bytes r, None)) (List.concat rss), []) (reachable_ok mm R)) as [spares S].
  exists spares. match type of S with same_end _ ?x _ => replace x with (done (st, (mm', d))) in S by (symmetry; exact E) end.
  match type of S with same_end _ _ ?y => destruct y as [[[st2 [d2 k]]|]|] eqn:X end; try contradiction.
  cbn [same_end done fst snd] in S. destruct S as [<- <-]. exists k. exact X.
Qed.

(** Whatever frames an accessory sends: at the end, the handlers have been told the commands decoded from
    all their packets, in order, as if they had come in one list.  The boundaries of frames and reports do
    not matter. *)
Theorem C110_told rt clock defs spares rss pss fuel st w :
  usable defs -> Forall2 (sends defs) rss pss -> List.length (List.concat rss) < fuel ->
  session rt clock defs spares fuel rss = done (st, w) ->
  exists cs, decodes rt false (List.concat pss) cs
    /\ does (serve (handlePacket std_registry clock DevGeneral_device) cs) h0 (sv_h st) tt (h_log (sv_h st)).
Proof.
  intros U S L E. destruct (session_told _ _ _ _ _ _ _ _ _ U S L E) as (cs & evs & D & X & _).
  exists cs. split; [exact D|]. destruct X as [X Y]. cbn [sv_h h_log h0 app] in *. split; [exact X|reflexivity].
Qed.
Print Assumptions C110_told.

(** The device is given the certificates that the sections among the packets make up, and no others. *)
Theorem C110_certificates rt clock defs spares rss pss fuel st w :
  usable defs -> Forall2 (sends defs) rss pss -> List.length (List.concat rss) < fuel ->
  session rt clock defs spares fuel rss = done (st, w) ->
  certificates_given st = completed [] (sections_in false (List.concat pss)).
Proof. intros U S L E. exact (told_certs _ _ _ _ _ (session_told _ _ _ _ _ _ _ _ _ U S L E)). Qed.
Print Assumptions C110_certificates.

Theorem C110_certificates_memory rt clock defs pol mm rss pss fuel st w :
  usable defs -> reachable mm -> Forall2 (sends defs) rss pss -> List.length (List.concat rss) < fuel ->
  session_mem rt clock defs pol mm fuel rss = done (st, w) ->
  certificates_given st = completed [] (sections_in false (List.concat pss)).
Proof.
  intros U R S L E. destruct w as [mm' d]. destruct (session_mem_some _ _ _ _ _ _ _ _ _ _ R E) as (spares & k & E').
  exact (C110_certificates _ _ _ _ _ _ _ _ _ U S L E').
Qed.
Print Assumptions C110_certificates_memory.

(** A certificate sent in sections 0 to [n], in order, is given to the device once and whole, whatever is
    sent before, after and in between. *)
Theorem C110_whole rt clock defs spares rss pss fuel st w ds :
  usable defs -> Forall2 (sends defs) rss pss -> List.length (List.concat rss) < fuel ->
  session rt clock defs spares fuel rss = done (st, w) ->
  sections_in false (List.concat pss) = map (fun '(i, d) => (N.of_nat i, N.of_nat (List.length ds - 1), d)) (combine (List.seq 0 (List.length ds)) ds) ->
  ds <> [] -> certificates_given st = [List.concat ds].
Proof.
  intros U S L E X NE. rewrite (C110_certificates _ _ _ _ _ _ _ _ _ U S L E), X, <- (completed_whole ds [] NE). f_equal.
  unfold whole_certificate, len. destruct ds; [now elim NE|]. cbn [List.length].
  replace (N.of_nat (Datatypes.S (List.length ds)) - 1)%N with (N.of_nat (Datatypes.S (List.length ds) - 1)) by lia. reflexivity.
Qed.
Print Assumptions C110_whole.

(** The handshake: the accessory starts identification, ends it, and sends its certificate in up to 256
    sections, with any frames of other packets in between, be they tokens, signatures or requests.  If
    none of these crashes the server, each step has exactly its answers; each other frame has the answers
    it would have anyway; and in the end transaction numbers are in use, the server has asked two questions
    of its own, and the device was given the whole certificate. *)
Theorem C110_handshake rt clock defs spares rss pss l t1 t2 xs fuel :
  usable defs -> Forall2 (sends defs) rss pss -> List.length (List.concat rss) < fuel ->
  List.length t1 = 2 -> List.length t2 = 2 -> Forall proper xs -> xs <> [] -> List.length xs <= 256 ->
  among free (handshake t1 t2 xs) pss l ->
  session rt clock defs spares fuel rss = Some Panic
    /\ (exists ps m, In ps pss /\ Forall free ps /\ receive_frame rt clock m ps = None)
  \/ exists st rest k fss outs,
       session rt clock defs spares fuel rss = done (st, ((rest, outs), k))
       /\ departs defs (List.concat fss) outs
       /\ Forall2 (fun x fs => match snd x with
                               | Some rs => fs = map frame_bytes rs
                               | None => exists m, receive_frame rt clock m (fst x) = Some (m, fs)
                               end) (combine pss l) fss
       /\ memory_of st = mkMemory true false 2 0
       /\ certificates_given st = [List.concat (map pt_data xs)].
Proof.
  intros U S L T1 T2 P NE B A. pose proof (session_is rt clock defs spares fuel rss pss U S L) as R.
  destruct (among_conversation rt clock _ _ _ A fresh _ (handshake_chained rt clock fresh t1 t2 xs T1 T2 P NE B)) as [[C X]|(fss & C & X)];
    rewrite C in R; [left; auto|]. right. destruct R as (outs & D & st & rest & k & E & M). exists st, rest, k, fss, outs.
  split; [exact E|]. split; [exact D|]. split; [exact X|]. split; [exact M|].
  rewrite (C110_certificates _ _ _ _ _ _ _ _ _ U S L E), (among_sections _ _ _ A), (handshake_sections t1 t2 xs false T1 T2 P NE B).
  apply completed_whole. destruct xs; [now elim NE|discriminate].
Qed.
Print Assumptions C110_handshake.

Theorem C110_handshake_memory rt clock defs pol mm rss pss l t1 t2 xs fuel :
  usable defs -> reachable mm -> Forall2 (sends defs) rss pss -> List.length (List.concat rss) < fuel ->
  List.length t1 = 2 -> List.length t2 = 2 -> Forall proper xs -> xs <> [] -> List.length xs <= 256 ->
  among free (handshake t1 t2 xs) pss l ->
  session_mem rt clock defs pol mm fuel rss = Some Panic
    /\ (exists ps m, In ps pss /\ Forall free ps /\ receive_frame rt clock m ps = None)
  \/ exists st rest mm' fss outs,
       session_mem rt clock defs pol mm fuel rss = done (st, (mm', (rest, outs)))
       /\ departs defs (List.concat fss) outs
       /\ Forall2 (fun x fs => match snd x with
                               | Some rs => fs = map frame_bytes rs
                               | None => exists m, receive_frame rt clock m (fst x) = Some (m, fs)
                               end) (combine pss l) fss
       /\ memory_of st = mkMemory true false 2 0
       /\ certificates_given st = [List.concat (map pt_data xs)].
Proof.
  intros U RM S L T1 T2 P NE B A. pose proof (session_mem_is rt clock defs pol mm fuel rss pss U RM S L) as R.
  destruct (among_conversation rt clock _ _ _ A fresh _ (handshake_chained rt clock fresh t1 t2 xs T1 T2 P NE B)) as [[C X]|(fss & C & X)];
    rewrite C in R; [left; auto|]. right. destruct R as (outs & D & st & mm' & rest & E & M). exists st, rest, mm', fss, outs.
  split; [exact E|]. split; [exact D|]. split; [exact X|]. split; [exact M|].
  rewrite (C110_certificates_memory _ _ _ _ _ _ _ _ _ _ U RM S L E), (among_sections _ _ _ A), (handshake_sections t1 t2 xs false T1 T2 P NE B).
  apply completed_whole. destruct xs; [now elim NE|discriminate].
Qed.
Print Assumptions C110_handshake_memory.

#[local] Transparent std_registry requests.

(** A handshake with three sections, and other requests: tokens after the start, the name between two
    sections, the signature at the end. *)
Definition parts3 : list part :=
  [mkPart [x00; x03] x02 x00 [xaa; xbb]; mkPart [x00; x04] x02 x00 [xcc]; mkPart [x00; x06] x02 x00 [xdd; xee]].
Definition frames8 : list (list bytes) :=
  [[[x00; x07]]; [[x00; x38; x00; x01]]; [[x00; x39; x00; x07; x00]]; [[x00; x3b; x00; x02; x00]];
   [[x00; x15; x00; x03; x02; x00; x00; x02; xaa; xbb]]; [[x00; x15; x00; x04; x02; x00; x01; x02; xcc]];
   [[x00; x07; x00; x05]; [x00; x0d; x00; x05]]; [[x00; x15; x00; x06; x02; x00; x02; x02; xdd; xee]]; [[x00; x18; x00; x07; x55; x55]]].
Definition answers8 : list (option (list bytes)) :=
  [None; Some [[x00; x02; x00; x01; x00; x38]]; None; Some [[x00; x3c; x00; x02; x00]; [x00; x14; x00; x01]];
   Some [[x00; x02; x00; x03; x00; x15]]; Some [[x00; x02; x00; x04; x00; x15]]; None;
   Some [[x0a; x02; x00; x02]; [x00; x16; x00; x06; x00]; [x00; x17; x00; x06] ++ repeat x00 21]; None].

Example C110_case :
  among free (handshake [x00; x01] [x00; x02] parts3) frames8 answers8 /\ Forall proper parts3
  /\ exists st rest k outs,
       session true clock0 DefaultReportDefs (fun _ => []) 12 (map (fun ps => [mkReport x09 x00 (flat_map frame_bytes ps)]) frames8)
         = done (st, ((rest, outs), k))
       /\ memory_of st = mkMemory true false 2 0 /\ certificates_given st = [[xaa; xbb; xcc; xdd; xee]] /\ List.length outs = 13.
Proof.
  split; [|split].
  - assert (F : forall ps, forallb (fun p => negb (is_tied p)) ps = true -> Forall free ps).
    { intros ps H. apply Forall_forall. intros p I. rewrite forallb_forall in H. specialize (H p I). intros T. revert H. unfold is_tied.
      replace (existsb _ tied) with true; [discriminate|]. symmetry. apply existsb_exists. exists (firstn 2 p). split; [exact T|].
      destruct (list_eq_dec _ _ _) as [|X]; [reflexivity|now elim X]. }
    unfold frames8, answers8, handshake, parts3. cbn [presents_from List.length Nat.sub].
    apply among_other; [apply F; reflexivity|]. apply (among_step _ (starts [x00; x01])). apply among_other; [apply F; reflexivity|].
    apply (among_step _ (finishes [x00; x02])). apply (among_step _ (presents 0 2 (mkPart [x00; x03] x02 x00 [xaa; xbb]))).
    apply (among_step _ (presents 1 2 (mkPart [x00; x04] x02 x00 [xcc]))). apply among_other; [apply F; reflexivity|].
    apply (among_step _ (presents 2 2 (mkPart [x00; x06] x02 x00 [xdd; xee]))). apply among_other; [apply F; reflexivity|]. apply among_end.
  - repeat (apply Forall_cons; [split; [reflexivity|vm_compute; discriminate]|]). apply Forall_nil.
  - do 4 eexists. split; [vm_compute; reflexivity|]. split; [reflexivity|]. split; reflexivity.
Qed.
