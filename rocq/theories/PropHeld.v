(** Property C116: what the server holds on to. *)
From Coq Require Import ZifyBool ZifyNat ZifyN Lia.
From Verif Require Import Base BaseFacts GoTypes Types Payload Lingo Command SpecPayload SpecCommand Handlers SpecHandlers HandlersThms
  SpecProtocol Packet SpecPacket Hid SpecHid HidThms Trace SpecTrace Server SpecServer SpecWire ServerThms ProtocolProps
  Mem SpecMem MemThms MemServer ProtocolMore PropProtocol PropMachine SpecRetry RetryThms PropRetry SpecRenew PropRenew SpecOrder OrderThms SpecIdentify IdentifyThms PropIdentify
  SpecHeld HeldThms.
Notation fresh := SpecWire.fresh.
#[local] Opaque std_registry requests.

(** What is held of a session: the certificate collected so far, and the tokens.  The rest of the state is a
    few numbers. *)
Definition certificate_held (st : server DevGeneral) : bytes := h_cert (sv_h st).
Definition tokens_there (st : server DevGeneral) : nat := List.length (dg_tokens (h_dev (sv_h st))).

(** For any input: at the end the server holds the sections since the last section 0, whether they were
    handed over or not, and the tokens since the last start of identification. *)
Theorem C116_held rt clock defs spares reads pss fuel st w :
  usable defs -> arrives defs spares 0 reads pss -> List.length reads < fuel -> served rt clock defs spares fuel reads = done (st, w) ->
  certificate_held st = collected [] (sections_in false (List.concat pss)) /\ tokens_there st = tokens_held rt false 0 (List.concat pss).
Proof.
  intros U A L E. exact (told_held _ _ _ _ _ (wire_told rt clock defs spares reads pss 0 U A fuel fuel (mkServer false h0) [] st w N.le_0_1 L L E)).
Qed.
Print Assumptions C116_held.

(** It never holds more than it was sent: a byte for each byte of the certificate and three for each token. *)
Theorem C116_bounded rt clock defs spares reads pss fuel st w :
  usable defs -> arrives defs spares 0 reads pss -> List.length reads < fuel -> served rt clock defs spares fuel reads = done (st, w) ->
  List.length (certificate_held st) + 3 * tokens_there st <= volume (List.concat pss).
Proof.
  intros U A L E. destruct (C116_held _ _ _ _ _ _ _ _ _ U A L E) as [-> ->]. exact (held_bytes rt (List.concat pss) false [] 0).
Qed.
Print Assumptions C116_bounded.

(** The same with the buffers the program has. *)
Theorem C116_bounded_memory rt clock defs pol mm rss pss fuel st w :
  usable defs -> reachable mm -> Forall2 (sends defs) rss pss -> List.length (List.concat rss) < fuel ->
  session_mem rt clock defs pol mm fuel rss = done (st, w) ->
  List.length (certificate_held st) + 3 * tokens_there st <= volume (List.concat pss).
Proof.
  intros U R S L E. destruct w as [mm' d]. destruct (session_mem_some _ _ _ _ _ _ _ _ _ _ R E) as (spares & k & E').
  refine (C116_bounded rt clock defs spares _ pss fuel st _ U (sent_arrives defs spares rss pss S 0) _ E'). now rewrite map_length.
Qed.
Print Assumptions C116_bounded_memory.

(** A frame that is being put together takes no more than the reports it came in. *)
Theorem C116_frame defs input rest buf r :
  ReadFrame defs [] input = Ret (rest, buf, r) ->
  exists used, input = used ++ rest
    /\ List.length buf <= list_sum (map (fun x => match x with inl rep => List.length (rep_Data rep) | inr _ => 0 end) used).
Proof. exact (frame_held defs input [] rest buf r). Qed.
Print Assumptions C116_frame.

(** ** There is no other bound *)

Lemma repeated p fs rt clock : receive_frame rt clock fresh [p] = Some (fresh, fs) -> forall n,
  conversation rt clock fresh (repeat [p] n) = Some (fresh, List.concat (repeat fs n)).
Proof. intros R n. induction n as [|n IH]; [reflexivity|]. cbn [repeat conversation]. rewrite R, IH. reflexivity. Qed.

Lemma concat_single {A} (p : A) n : List.concat (repeat [p] n) = repeat p n.
Proof. induction n as [|n IH]; [reflexivity|]. cbn. now rewrite IH. Qed.

Lemma endless rt clock spares p f n : writable p -> List.length (frame_with [p]) <= 62 -> receive_frame rt clock fresh [p] = Some (fresh, [f]) ->
  let rss := repeat (request_of p) n in
  exists st rest outs k, session rt clock DefaultReportDefs spares (1 + List.length (List.concat rss)) rss = done (st, ((rest, outs), k))
    /\ departs DefaultReportDefs (repeat f n) outs
    /\ certificate_held st = collected [] (sections_in false (repeat p n)) /\ tokens_there st = tokens_held rt false 0 (repeat p n).
Proof.
  intros W L R rss. pose proof (repeat_sends DefaultReportDefs _ _ n (request_sent p W L)) as S.
  pose proof (session_is rt clock DefaultReportDefs spares (1 + List.length (List.concat rss)) rss _ default_usable S (Nat.lt_succ_diag_r _)) as K.
  rewrite (repeated _ _ _ _ R n), concat_single in K. destruct K as (outs & D & st & rest & k & E & _). exists st, rest, outs, k. split; [exact E|]. split; [exact D|].
  rewrite <- concat_single. apply (C116_held rt clock DefaultReportDefs spares _ _ (1 + List.length (List.concat rss)) st ((rest, outs), k) default_usable
    (sent_arrives DefaultReportDefs spares _ _ S 0)); [rewrite map_length; apply Nat.lt_succ_diag_r|exact E].
Qed.
#[local] Transparent std_registry requests.

(** Finding: sections of a certificate are collected without end.  An accessory that keeps sending "section 1
    of 2" gets each one acknowledged, and all of them are held. *)
Definition one_section : bytes := [x00; x15; x02; x00; x01; x02; xaa].
Theorem C116_certificate_refuted rt clock spares n :
  let rss := repeat (request_of one_section) n in
  exists st rest outs k, session rt clock DefaultReportDefs spares (1 + List.length (List.concat rss)) rss = done (st, ((rest, outs), k))
    /\ departs DefaultReportDefs (repeat (frame_bytes [x00; x02; x00; x15]) n) outs
    /\ certificate_held st = repeat xaa n.
Proof.
  destruct (endless rt clock spares one_section (frame_bytes [x00; x02; x00; x15]) n) as (st & rest & outs & k & E & D & C & _); [split; vm_compute; (reflexivity || discriminate || (split; discriminate))|vm_compute; lia|reflexivity|].
  exists st, rest, outs, k. split; [exact E|]. split; [exact D|]. rewrite C. clear.
  assert (Z : forall held, collected held (sections_in false (repeat one_section n)) = held ++ repeat xaa n).
  { induction n as [|n IH]; intros held; [symmetry; apply app_nil_r|]. cbn [repeat one_section sections_in section_of numbers_behind]. cbn [skipn b2n]. 
    change (2 <=? b2n x02)%N with true. cbn [app collected]. change (b2n x01 =? 0)%N with false. cbv iota. rewrite IH, <- app_assoc. reflexivity. }
  apply Z.
Qed.
Print Assumptions C116_certificate_refuted.

(** Finding: so are the tokens of an accessory that goes on with its identification. *)
Definition one_token : bytes := [x00; x39; x01; x02; x00; x01].
Theorem C116_tokens_refuted rt clock spares n :
  let rss := repeat (request_of one_token) n in
  exists st rest outs k, session rt clock DefaultReportDefs spares (1 + List.length (List.concat rss)) rss = done (st, ((rest, outs), k))
    /\ departs DefaultReportDefs (repeat (frame_bytes [x00; x3a; x01; x03; x00; x01; x00]) n) outs
    /\ tokens_there st = n.
Proof.
  destruct (endless rt clock spares one_token (frame_bytes [x00; x3a; x01; x03; x00; x01; x00]) n) as (st & rest & outs & k & E & D & _ & T); [split; vm_compute; (reflexivity || discriminate || (split; discriminate))|vm_compute; lia|reflexivity|].
  exists st, rest, outs, k. split; [exact E|]. split; [exact D|]. rewrite T. clear.
  assert (Z : forall held, tokens_held rt false held (repeat one_token n) = held + n).
  { induction n as [|n IH]; intros held; [symmetry; apply Nat.add_0_r|]. cbn [repeat tokens_held]. change (forgets one_token) with false. cbv iota.
    change (numbers_behind false one_token) with false. rewrite IH. replace (brings rt false one_token) with 1 by (destruct rt; reflexivity). lia. }
  apply Z.
Qed.
Print Assumptions C116_tokens_refuted.

(** Finding: and a frame that is never ended. *)
Theorem C116_frame_refuted n :
  exists buf, ReadFrame DefaultReportDefs [] (repeat (inl (mkReport x09 x03 [x55])) n) = Ret ([], buf, inr EOF) /\ buf = repeat x55 n.
Proof.
  assert (Z : forall held, ReadFrame_loop DefaultReportDefs held (repeat (inl (mkReport x09 x03 [x55])) n) = Ret ([], held ++ repeat x55 n, inr EOF)).
  { induction n as [|n IH]; intros held; [now rewrite app_nil_r|]. cbn [repeat]. change (ReadFrame_loop DefaultReportDefs held (inl (mkReport x09 x03 [x55]) :: ?l)) with (ReadFrame_loop DefaultReportDefs (held ++ [x55]) l).
    rewrite IH, <- app_assoc. reflexivity. }
  eexists. split; [exact (Z [])|reflexivity].
Qed.
Print Assumptions C116_frame_refuted.

(** An identification with three tokens, two of them after a new start, and two sections of a certificate. *)
Definition frames116 : list bytes :=
  [[x00; x39; x01; x02; x00; x01]; [x00; x38; x00; x01]; [x00; x39; x00; x02; x02; x02; x00; x01; x02; x00; x01];
   [x00; x15; x00; x03; x02; x00; x00; x02; xaa; xbb]; [x00; x15; x00; x04; x02; x00; x01; x02; xcc]].
Example C116_case :
  usable DefaultReportDefs /\ arrives DefaultReportDefs (fun _ => []) 0 (reads_of (map request_of frames116)) (map (fun p => [p]) frames116)
  /\ (exists st w, served true clock_ticking DefaultReportDefs (fun _ => []) 20 (reads_of (map request_of frames116)) = done (st, w)
        /\ certificate_held st = [xaa; xbb; xcc] /\ tokens_there st = 2)
  /\ volume frames116 = 40.
Proof.
  split; [exact default_usable|]. split; [|split; [|reflexivity]].
  - apply (sent_arrives DefaultReportDefs (fun _ => []) (map request_of frames116)).
    repeat (apply Forall2_cons; [apply request_sent; [split; vm_compute; (reflexivity || discriminate || (split; discriminate))|vm_compute; lia]|]). apply Forall2_nil.
  - do 2 eexists. split; [vm_compute; reflexivity|]. split; reflexivity.
Qed.
