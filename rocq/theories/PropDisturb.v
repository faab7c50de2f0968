(** Property C113: disturbances on the way to the server. *)
From Coq Require Import ZifyBool ZifyNat ZifyN Lia.
From Verif Require Import Base BaseFacts GoTypes Types Payload Lingo Command SpecPayload SpecCommand Handlers SpecHandlers HandlersThms
  SpecProtocol Packet SpecPacket Hid SpecHid HidThms Trace SpecTrace Server SpecServer SpecWire ServerThms ProtocolProps
  Mem SpecMem MemThms MemServer ProtocolMore PropProtocol PropMachine SpecRetry RetryThms PropRetry SpecRenew RenewThms PropRenew SpecDisturb DisturbThms.
Notation fresh := SpecWire.fresh.
#[local] Opaque std_registry requests.

Lemma after_join defs spares rss pss old pss1 n : Forall2 (sends defs) rss pss -> starts_frame rss ->
  arrives defs spares n old pss1 -> Forall (fun x => ReadReport x <> inr EOF) old -> arrives defs spares n (old ++ reads_of rss) (pss1 ++ pss).
Proof.
  intros F S A N. destruct F as [|rs ps rss pss S1 F].
  - unfold reads_of. cbn [List.concat map]. now rewrite !app_nil_r.
  - unfold reads_of. now apply arrives_join.
Qed.

Lemma sent_not_eof defs rss pss : Forall2 (sends defs) rss pss -> Forall (fun x => ReadReport x <> inr EOF) (reads_of rss).
Proof.
  intros F. unfold reads_of. induction F as [|rs ps rss pss (pre & last & f & -> & _ & _ & _ & L & _) F IH]; [constructor|].
  cbn [List.concat]. rewrite map_app. apply Forall_app. split; [|exact IH]. apply Forall_map, Forall_forall. intros r I.
  rewrite Forall_forall in L. pose proof (sent_reports [r] (Forall_cons _ (L r I) (Forall_nil _))) as M. cbn [map] in M.
  intros Q. apply (f_equal (hd_error (A:=_))) in M. cbn [hd_error] in M. rewrite Q in M. discriminate M.
Qed.

(** Noise - read errors, reports of unknown ids, reports without a byte that can start a packet, with any
    link control - comes between two frames, the later of which has a report that starts a frame.  The server
    behaves as if it had not come: the same reports are written and the same memory is left, or both crash. *)
Theorem C113_noise rt clock defs before pb X after pa fuel :
  usable defs -> Forall2 (sends defs) before pb -> Forall2 (sends defs) after pa -> starts_frame after -> Forall (noise defs) X ->
  List.length (reads_of before ++ X ++ reads_of after) < fuel ->
  let disturbed := fun spares => served rt clock defs spares fuel (reads_of before ++ X ++ reads_of after) in
  let undisturbed := fun spares => served rt clock defs spares fuel (reads_of before ++ reads_of after) in
  (forall spares, disturbed spares = Some Panic /\ undisturbed spares = Some Panic)
  \/ exists m o, forall spares, ends_with (disturbed spares) m o /\ ends_with (undisturbed spares) m o.
Proof.
  intros U FB FA SF NX L disturbed undisturbed.
  assert (NE : Forall (fun x => ReadReport x <> inr EOF) X).
  { revert NX. apply Forall_impl. intros x N. unfold noise in N. destruct (ReadReport x); [discriminate|congruence]. }
  assert (D : forall spares, exists pssX, arrives defs spares 0 (reads_of before ++ X ++ reads_of after) (pb ++ pssX ++ pa) /\ Forall (fun ps => ps = []) pssX).
  { intros sp. destruct (noise_arrives defs sp _ X (0 + List.length before) (le_n _) NX) as (pssX & A & E). exists pssX. split; [|exact E].
    rewrite !app_assoc. apply after_join; [exact FA|exact SF| |].
    - unfold reads_of. now apply frames_then.
    - apply Forall_app. split; [exact (sent_not_eof _ _ _ FB)|exact NE]. }
  assert (B : forall spares, arrives defs spares 0 (reads_of before ++ reads_of after) (pb ++ pa)).
  { intros sp. unfold reads_of. apply frames_then; [exact FB|]. rewrite <- (app_nil_r (map _ _)), <- (app_nil_r pa). apply frames_then; [exact FA|].
    apply arrives_end with []; [reflexivity|split; constructor]. }
  assert (LB : List.length (reads_of before ++ reads_of after) < fuel) by (rewrite !app_length in *; lia).
  assert (CX : forall pssX, Forall (fun ps => ps = []) pssX -> conversation rt clock fresh (pb ++ pssX ++ pa) = conversation rt clock fresh (pb ++ pa)).
  { intros pssX E. rewrite !conversation_app. destruct (conversation rt clock fresh pb) as [[m1 l1]|]; [|reflexivity].
    rewrite conversation_app, (conversation_nothing rt clock pssX E m1). cbn [app]. destruct (conversation rt clock m1 pa) as [[m2 l2]|]; reflexivity. }
  assert (RD : forall spares, match conversation rt clock fresh (pb ++ pa) with None => disturbed spares = Some Panic
             | Some (m, fs) => exists outs, departs defs fs outs /\ ends_with (disturbed spares) m outs end).
  { intros sp. destruct (D sp) as (pssX & A & E). rewrite <- (CX pssX E). exact (served_is rt clock defs sp fuel _ _ U A L). }
  assert (RU : forall spares, match conversation rt clock fresh (pb ++ pa) with None => undisturbed spares = Some Panic
             | Some (m, fs) => exists outs, departs defs fs outs /\ ends_with (undisturbed spares) m outs end).
  { intros sp. exact (served_is rt clock defs sp fuel _ _ U (B sp) LB). }
  destruct (conversation rt clock fresh (pb ++ pa)) as [[m fs]|]; [right|left; auto].
  destruct (RD (fun _ => [])) as (o & DO & _). exists m, o. intros sp.
  destruct (RD sp) as (o1 & D1 & E1), (RU sp) as (o2 & D2 & E2). rewrite (departs_unique _ _ _ _ D1 DO) in E1. rewrite (departs_unique _ _ _ _ D2 DO) in E2. auto.
Qed.
Print Assumptions C113_noise.

(** Anything comes between two frames, say the reports of a frame in another order, in part, several times, or
    altered, and the server does not crash on it.  If no packet to be found in it changes the memory - it is
    neither an identification nor one of the few that count or set the mode - then everything before and after
    is as if it had not come; what is answered to it is all that is added. *)
Theorem C113_contained rt clock defs spares before pb X after pa r fuel :
  usable defs -> Forall2 (sends defs) before pb -> Forall2 (sends defs) after pa -> starts_frame after ->
  Forall (fun x => ReadReport x <> inr EOF) X -> (forall p, found_in defs X p -> ~ delicate p /\ ~ switches p) ->
  List.length (reads_of before ++ X ++ reads_of after) < fuel ->
  served rt clock defs spares fuel (reads_of before ++ X) = done r ->
  let disturbed := served rt clock defs spares fuel (reads_of before ++ X ++ reads_of after) in
  let undisturbed := fun spares => served rt clock defs spares fuel (reads_of before ++ reads_of after) in
  (disturbed = Some Panic /\ forall spares, undisturbed spares = Some Panic)
  \/ exists m1 m o1 oX o2, ends_with disturbed m (o1 ++ oX ++ o2)
       /\ forall spares, ends_with (undisturbed spares) m (o1 ++ o2) /\ ends_with (served rt clock defs spares fuel (reads_of before)) m1 o1.
Proof.
  intros U FB FA SF NE HX L R disturbed undisturbed.
  assert (LX : List.length (reads_of before ++ X) < fuel) by (rewrite !app_length in *; lia).
  destruct (wire_arrives rt clock defs spares fuel U fuel 0 _ [] (mkServer false h0) _ sound_init LX R) as (pssJ & AJ).
  unfold reads_of in AJ at 1. destruct (frames_back defs spares before pb FB 0 X pssJ AJ) as (pssX & AX).
  pose proof (arrives_found _ _ _ _ _ AX) as FX.
  assert (HF : Forall (Forall harmless) pssX) by (revert FX; apply Forall_impl; intros ps; apply Forall_impl; exact HX).
  assert (A1 : arrives defs spares 0 (reads_of before ++ X) (pb ++ pssX)) by (unfold reads_of; now apply frames_then).
  assert (A2 : arrives defs spares 0 (reads_of before ++ X ++ reads_of after) ((pb ++ pssX) ++ pa)).
  { rewrite app_assoc. apply after_join; [exact FA|exact SF|exact A1|]. apply Forall_app. split; [exact (sent_not_eof _ _ _ FB)|exact NE]. }
  assert (B0 : forall spares, arrives defs spares 0 (reads_of before) pb).
  { intros sp. unfold reads_of. rewrite <- (app_nil_r (map _ _)), <- (app_nil_r pb). apply frames_then; [exact FB|].
    apply arrives_end with []; [reflexivity|split; constructor]. }
  assert (B : forall spares, arrives defs spares 0 (reads_of before ++ reads_of after) (pb ++ pa)).
  { intros sp. unfold reads_of. apply frames_then; [exact FB|]. rewrite <- (app_nil_r (map _ _)), <- (app_nil_r pa). apply frames_then; [exact FA|].
    apply arrives_end with []; [reflexivity|split; constructor]. }
  assert (LB : List.length (reads_of before ++ reads_of after) < fuel) by (rewrite !app_length in *; lia).
  assert (L0 : List.length (reads_of before) < fuel) by (rewrite !app_length in *; lia).
  pose proof (served_is rt clock defs spares fuel _ _ U A1 LX) as R1. pose proof (served_is rt clock defs spares fuel _ _ U A2 L) as R2. fold disturbed in R2.
  assert (RU : forall sp, _) by (intros sp; exact (served_is rt clock defs sp fuel _ _ U (B sp) LB)). 
  assert (R0 : forall sp, _) by (intros sp; exact (served_is rt clock defs sp fuel _ _ U (B0 sp) L0)). cbv beta in RU, R0.
  rewrite (conversation_app rt clock (pb ++ pssX) pa), (conversation_app rt clock pb pssX) in R2. rewrite (conversation_app rt clock pb pssX) in R1. rewrite (conversation_app rt clock pb pa) in RU.
  destruct (conversation rt clock fresh pb) as [[m1 l1]|] eqn:C1; [|rewrite R in R1; discriminate R1].
  destruct (conversation rt clock m1 pssX) as [[m2 lX]|] eqn:C2; [|rewrite R in R1; discriminate R1].
  rewrite (conversation_harmless _ _ _ HF _ _ _ C2) in R2.
  destruct (conversation rt clock m1 pa) as [[m3 l3]|]; [right|left; auto].
  destruct R2 as (outs & D2 & E2). apply departs_split in D2 as (o1X & o2 & -> & D1X & D2). apply departs_split in D1X as (o1 & oX & -> & D1 & DX).
  exists m1, m3, o1, oX, o2. split; [now rewrite app_assoc|]. intros sp. split.
  - destruct (RU sp) as (o & D & E). rewrite (departs_unique _ _ _ _ D (departs_app _ _ _ _ _ D1 D2)) in E. exact E.
  - destruct (R0 sp) as (o & D & E). rewrite (departs_unique _ _ _ _ D D1) in E. exact E.
Qed.
Print Assumptions C113_contained.

(** The same with the real buffers, whatever state they are in. *)
Lemma mem_end rt clock defs pol mm fuel reads : reachable mm -> exists spares,
  match served_mem rt clock defs pol mm fuel reads with
  | Some (Ret (st, (_, w))) => exists k, served rt clock defs spares fuel reads = done (st, (w, k))
  | Some Panic => served rt clock defs spares fuel reads = Some Panic
  | None => served rt clock defs spares fuel reads = None
  end.
Proof.
  intros RM. destruct (processFrames_sim rt std_registry clock DevGeneral_device fuel defs pol wire_read wire_write fuel h0 mm
      (reads, []) (reachable_ok mm RM)) as [spares SI]. exists spares.
  match type of SI with same_end _ ?x ?y => replace x with (served_mem rt clock defs pol mm fuel reads) in SI by reflexivity;
    replace y with (served rt clock defs spares fuel reads) in SI by reflexivity end.
  destruct (served_mem rt clock defs pol mm fuel reads) as [[[st [mm1 w]]|]|]; destruct (served rt clock defs spares fuel reads) as [[[st2 [d2 k]]|]|];
    try contradiction; cbn [same_end fst snd] in SI; try reflexivity.
  destruct SI as [<- <-]. exists k. reflexivity.
Qed.

Theorem C113_noise_memory rt clock defs before pb X after pa fuel :
  usable defs -> Forall2 (sends defs) before pb -> Forall2 (sends defs) after pa -> starts_frame after -> Forall (noise defs) X ->
  List.length (reads_of before ++ X ++ reads_of after) < fuel ->
  let disturbed := fun pol mm => served_mem rt clock defs pol mm fuel (reads_of before ++ X ++ reads_of after) in
  let undisturbed := fun pol mm => served_mem rt clock defs pol mm fuel (reads_of before ++ reads_of after) in
  (forall pol mm, reachable mm -> disturbed pol mm = Some Panic /\ undisturbed pol mm = Some Panic)
  \/ exists m o, forall pol mm, reachable mm -> ends_with_mem (disturbed pol mm) m o /\ ends_with_mem (undisturbed pol mm) m o.
Proof.
  intros U FB FA SF NX L disturbed undisturbed.
  assert (T : forall reads m o, (forall spares, ends_with (served rt clock defs spares fuel reads) m o) ->
              forall pol mm, reachable mm -> ends_with_mem (served_mem rt clock defs pol mm fuel reads) m o).
  { intros reads m o E pol mm RM. destruct (mem_end rt clock defs pol mm fuel reads RM) as (sp & Q). destruct (E sp) as (st & rest & k & E1 & M).
    rewrite E1 in Q. destruct (served_mem rt clock defs pol mm fuel reads) as [[[st' [mm' w]]|]|]; try discriminate Q.
    destruct Q as (k' & Q). injection Q as Q1 Q2 _. subst st' w. exists st, mm', rest. auto. }
  assert (P : forall reads, (forall spares, served rt clock defs spares fuel reads = Some Panic) ->
              forall pol mm, reachable mm -> served_mem rt clock defs pol mm fuel reads = Some Panic).
  { intros reads E pol mm RM. destruct (mem_end rt clock defs pol mm fuel reads RM) as (sp & Q). specialize (E sp).
    rewrite E in Q. destruct (served_mem rt clock defs pol mm fuel reads) as [[[st' [mm' w]]|]|]; [destruct Q as (k & Q); discriminate Q|reflexivity|discriminate Q]. }
  destruct (C113_noise rt clock defs before pb X after pa fuel U FB FA SF NX L) as [C|(m & o & C)].
  - left. intros pol mm RM. split; apply P; try exact RM; intros sp; apply C.
  - right. exists m, o. intros pol mm RM. split; apply T; try exact RM; intros sp; apply C.
Qed.
Print Assumptions C113_noise_memory.

(** What can be found in some bytes, to be computed. *)
Fixpoint all_found (P : bytes -> bool) (s : bytes) : bool :=
  match s with
  | [] => true
  | b :: t =>
      (if Byte.eqb b x55 then
         match t with
         | [] => true
         | l :: t' => if Byte.eqb l x00
                      then match t' with hi :: lo :: t'' => P (firstn (N.to_nat (256 * b2n hi + b2n lo)) t'') | _ => true end
                      else P (firstn (N.to_nat (b2n l)) t')
         end
       else true) && all_found P t
  end.

Lemma all_found_tail P u s : all_found P (u ++ s) = true -> all_found P s = true.
Proof. induction u as [|b u IH]; [auto|]. cbn [app all_found]. intros Q. apply andb_prop in Q as [_ Q]. auto. Qed.

Lemma firstn_len (p r : bytes) n : n = len p -> firstn (N.to_nat n) (p ++ r) = p.
Proof. intros ->. unfold len. rewrite Nnat.Nat2N.id, firstn_app, Nat.sub_diag, firstn_all. cbn [firstn]. now rewrite app_nil_r. Qed.

Lemma all_found_ok P u w v p : all_found P (u ++ w ++ v) = true -> is_packet p w -> P p = true.
Proof.
  intros Q (h & c & -> & H & _). apply all_found_tail in Q. cbn [app all_found] in Q. apply andb_prop in Q as [Q _].
  change (Byte.eqb x55 x55) with true in Q. destruct H as [b E N|hi lo E]; cbn [app] in Q.
  - replace (Byte.eqb b x00) with false in Q by (destruct b; try reflexivity; exfalso; apply N; rewrite <- E; reflexivity).
    rewrite <- app_assoc, firstn_len in Q by exact E. exact Q.
  - change (Byte.eqb x00 x00) with true in Q; cbv iota in Q; rewrite <- app_assoc, firstn_len in Q by exact E. exact Q.
Qed.

Definition data_of (x : raw_read) : bytes := match ReadReport x with inl r => rep_Data r | inr _ => [] end.

Lemma found_data defs X p : (forall x r c, In x X -> ReadReport x = inl r -> contributes defs r c -> c = rep_Data r) ->
  found_in defs X p -> exists u w v, List.concat (map data_of X) = u ++ w ++ v /\ is_packet p w.
Proof.
  intros H (pre & row & post & rs & cs & u & w & v & -> & M & C & E & K).
  assert (R : List.concat (map data_of row) = List.concat cs).
  { assert (HR : forall x r c, In x row -> ReadReport x = inl r -> contributes defs r c -> c = rep_Data r)
      by (intros x r c I; apply H; apply in_or_app; right; apply in_or_app; now left).
    clear H E. revert rs cs M C. induction row as [|x row IH]; intros rs cs M C.
    - destruct rs; [|discriminate M]. inversion C. reflexivity.
    - destruct rs as [|r rs]; [discriminate M|]. apply (f_equal (fun l => (hd_error l, tl l))) in M. cbn [map hd_error tl] in M.
      assert (M1 : ReadReport x = inl r) by congruence. assert (M2 : map ReadReport row = map inl rs) by congruence. clear M.
      inversion C as [|? c ? cs' C1 C2]; subst. cbn [map List.concat]. rewrite (IH (fun y r c I => HR y r c (or_intror I)) rs cs' M2 C2).
      rewrite (HR x r c (or_introl eq_refl) M1 C1). unfold data_of. now rewrite M1. }
  exists (List.concat (map data_of pre) ++ u), w, (v ++ List.concat (map data_of post)). split; [|exact K].
  rewrite !map_app, !concat_app, R, E. now rewrite !app_assoc.
Qed.

Definition harmlessb (p : bytes) : bool :=
  match p with
  | x00 :: c :: _ => negb (existsb (Byte.eqb c) [x05; x06; x15; x3b; x00; x13; x38])
  | x03 :: x0c :: _ => false
  | _ => true
  end.
Lemma harmlessb_ok p : harmlessb p = true -> ~ delicate p /\ ~ switches p.
Proof.
  intros H. split.
  - intros (a & c & b & -> & I). cbn [In] in I. decompose [or] I; try contradiction;
      match goal with Q : _ = [a; c] |- _ => injection Q as <- <-; discriminate H end.
  - intros (c & b & -> & I). cbn [In] in I. decompose [or] I; try contradiction; subst c; discriminate H.
Qed.

(** The reports of a question come in the wrong order, one of them twice, then another question comes, a read
    fails and a report of unknown id comes; the questions before and after are answered as ever. *)
Definition swapped : list raw_read :=
  map (fun r => (report_bytes r, None)) [mkReport x09 x01 [x0c; xef; x00]; mkReport x09 x02 [x55; x02; x03]; mkReport x09 x02 [x55; x02; x03]].
Definition broken : list raw_read := [([], Some (ErrMsg "device")); (x42 :: x00 :: repeat x55 8, None)].
Definition disturbance : list raw_read := swapped ++ reads_of [request_of [x00; x09]] ++ broken.
Definition question : list (list Report) := [request_of [x00; x07]].

Lemma default_contributes r c : contributes DefaultReportDefs r c -> rep_ID r = x09 /\ List.length (rep_Data r) <= 62 /\ ignored r = false \/ rep_ID r = x42 -> c = rep_Data r.
Proof.
  intros (d & (a & b & E & I & _) & _ & ->) [(R & L & ->)|R]; rewrite R in I.
  - assert (J : In d DefaultReportDefs) by (rewrite E; apply in_or_app; right; now left). cbn [In DefaultReportDefs] in J.
    decompose [or] J; try contradiction; subst d; try discriminate I. apply firstn_all2. exact L.
  - assert (J : In d DefaultReportDefs) by (rewrite E; apply in_or_app; right; now left). cbn [In DefaultReportDefs] in J.
    decompose [or] J; try contradiction; subst d; discriminate I.
Qed.

Example C113_case :
  usable DefaultReportDefs /\ Forall2 (sends DefaultReportDefs) question [[[x00; x07]]] /\ starts_frame question
  /\ Forall (fun x => ReadReport x <> inr EOF) disturbance
  /\ (forall p, found_in DefaultReportDefs disturbance p -> ~ delicate p /\ ~ switches p)
  /\ found_in DefaultReportDefs disturbance [x00; x09]
  /\ Forall (noise DefaultReportDefs) broken
  /\ exists a b, a <> b
       /\ ends_with (served true clock_ticking DefaultReportDefs (fun _ => []) 20 (reads_of question ++ disturbance ++ reads_of question)) fresh [a; b; a]
       /\ ends_with (served true clock_ticking DefaultReportDefs (fun _ => []) 20 (reads_of question ++ reads_of question)) fresh [a; a].
Proof.
  split; [exact default_usable|]. split; [|split; [|split; [|split; [|split; [|split]]]]].
  - repeat (apply Forall2_cons; [apply request_sent; [split; vm_compute; (reflexivity || discriminate || (split; discriminate))|vm_compute; lia]|]). apply Forall2_nil.
  - left. left. reflexivity.
  - repeat (apply Forall_cons; [vm_compute; discriminate|]). apply Forall_nil.
  - intros p F. apply harmlessb_ok.
    assert (H : forall x r c, In x disturbance -> ReadReport x = inl r -> contributes DefaultReportDefs r c -> c = rep_Data r).
    { intros x r c I Q D. apply default_contributes; [exact D|]. unfold disturbance, swapped, broken in I. cbn [In app map reads_of List.concat] in I.
      assert (Q' : forall y, y = inl r -> y = ReadReport x -> rep_ID r = x09 /\ List.length (rep_Data r) <= 62 /\ ignored r = false \/ rep_ID r = x42); [|exact (Q' _ Q eq_refl)].
      clear Q D. intros y Q Q'. cbn in I. decompose [or] I; try contradiction; subst x; vm_compute in Q'; rewrite Q' in Q; try discriminate Q; injection Q as <-;
        ((right; reflexivity) || (left; vm_compute; repeat split; lia)). }
    destruct (found_data _ _ _ H F) as (u & w & v & E & K). apply (all_found_ok harmlessb u w v); [|exact K]. rewrite <- E. vm_compute. reflexivity.
  - exists swapped, (reads_of [request_of [x00; x09]]), broken, (request_of [x00; x09]), [frame_with [[x00; x09]]], [x00], (frame_bytes [x00; x09]), [x00].
    split; [reflexivity|]. split; [vm_compute; reflexivity|]. split; [|split; [reflexivity|]].
    + apply Forall2_cons; [|apply Forall2_nil]. exists (mkDef 9 63 0). split; [|split; [vm_compute; discriminate|vm_compute; reflexivity]].
      exists (firstn 8 DefaultReportDefs), []. split; [reflexivity|split; [reflexivity|]]. vm_compute. repeat (apply Forall_cons; [discriminate|]). apply Forall_nil.
    + exists [x02], xf5. split; [reflexivity|]. split; [apply header_small; [reflexivity|discriminate]|reflexivity].
  - unfold broken. apply Forall_cons; [vm_compute; discriminate|]. apply Forall_cons; [|apply Forall_nil].
    left. vm_compute. repeat (apply Forall_cons; [discriminate|]). apply Forall_nil.
  - do 2 eexists. split; [|split]; [|do 3 eexists; (split; [vm_compute; reflexivity|vm_compute; reflexivity])..]. discriminate.
Qed.

(** Finding: the condition on what is to be found is needed, and it is about more than the packets that were
    sent.  The reports of a frame come one by one, and a lost first report leaves the others, which the
    receiver takes for a frame.  Here the frame is one packet of a command that is not known, with some bytes
    in it that look like the start of identification; as sent, it changes nothing, and with its first report
    lost it turns transaction numbers on. *)
Definition inner : bytes := frame_bytes [x00; x38; x00; x01].
Definition outer : bytes := frame_bytes ([x0b; x00; x00; x00] ++ inner ++ [x00]).
Definition two_reports : list Report := [mkReport x09 x02 (firstn 6 outer); mkReport x09 x01 (skipn 6 outer ++ repeat x00 4)].
Theorem C113_lost_refuted :
  sends DefaultReportDefs two_reports [[x0b; x00; x00; x00] ++ inner ++ [x00]]
  /\ found_in DefaultReportDefs (reads_of [tl two_reports]) [x00; x38; x00; x01]
  /\ exists o1 o2, ends_with (served true clock_ticking DefaultReportDefs (fun _ => []) 20 (reads_of [two_reports])) fresh o1
       /\ ends_with (served true clock_ticking DefaultReportDefs (fun _ => []) 20 (reads_of [tl two_reports])) (mkMemory true false 0 0) o2.
Proof.
  assert (K : forall l d, known DefaultReportDefs (mkReport x09 l d) (mkDef 9 63 0)).
  { intros l d. exists (firstn 8 DefaultReportDefs), []. split; [reflexivity|]. split; [reflexivity|]. repeat (apply Forall_cons; [discriminate|]). apply Forall_nil. }
  assert (C : forall l d, ignored (mkReport x09 l d) = false -> List.length d <= 62 -> contributes DefaultReportDefs (mkReport x09 l d) d).
  { intros l d I L. exists (mkDef 9 63 0). split; [apply K|]. split; [discriminate|]. rewrite I. symmetry. now apply firstn_all2. }
  split; [|split].
  - exists [mkReport x09 x02 (firstn 6 outer)], (mkReport x09 x01 (skipn 6 outer ++ repeat x00 4)), (outer ++ repeat x00 4).
    split; [reflexivity|]. split; [|split; [exists (mkDef 9 63 0); split; [apply (K x01 (skipn 6 outer ++ repeat x00 4))|discriminate]|split; [right; reflexivity|split; [|split]]]].
    + split; (apply Forall_cons; [|apply Forall_nil]); [exists (mkDef 9 63 0); split; [apply (K x02 (firstn 6 outer))|discriminate]|intros [Q|Q]; discriminate Q].
    + repeat (apply Forall_cons; [vm_compute; lia|]). apply Forall_nil.
    + apply frame_started with [] (mkReport x09 x02 (firstn 6 outer)) [mkReport x09 x01 (skipn 6 outer ++ repeat x00 4)] [firstn 6 outer; skipn 6 outer ++ repeat x00 4];
        [reflexivity|right; reflexivity|apply Forall_cons; [intros [Q|Q]; discriminate Q|apply Forall_nil]| |reflexivity].
      apply Forall2_cons; [apply (C x02 (firstn 6 outer)); [reflexivity|vm_compute; lia]|]. apply Forall2_cons; [apply (C x01 (skipn 6 outer ++ repeat x00 4)); [reflexivity|vm_compute; lia]|apply Forall2_nil].
    + apply (stream_pkt [] _ outer [] (repeat x00 4)); [intros []| |apply stream_end; intros Q; cbn in Q; decompose [or] Q; try discriminate; contradiction].
      exists [x0c], (List.last outer x00). split; [vm_compute; reflexivity|]. split; [apply header_small; [reflexivity|discriminate]|vm_compute; reflexivity].
  - exists [], (reads_of [tl two_reports]), [], (tl two_reports), [skipn 6 outer ++ repeat x00 4], [], inner, (x00 :: List.last outer x00 :: repeat x00 4).
    split; [reflexivity|]. split; [vm_compute; reflexivity|]. split; [|split; [vm_compute; reflexivity|]].
    + apply Forall2_cons; [apply (C x01 (skipn 6 outer ++ repeat x00 4)); [reflexivity|vm_compute; lia]|apply Forall2_nil].
    + exists [x04], (List.last inner x00). split; [vm_compute; reflexivity|]. split; [apply header_small; [reflexivity|discriminate]|vm_compute; reflexivity].
  - do 2 eexists. split; do 3 eexists; (split; [vm_compute; reflexivity|vm_compute; reflexivity]).
Qed.
Print Assumptions C113_lost_refuted.
