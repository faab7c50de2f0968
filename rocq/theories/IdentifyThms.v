(** Lemmas for C110. *)
From Coq Require Import ZifyBool ZifyNat ZifyN Lia.
From Verif Require Import Base BaseFacts GoTypes Types Payload PayloadFacts PayloadThms Lingo LingoFacts Command CommandFacts CommandThms SpecPayload SpecCommand
  Handlers SpecHandlers HandlersFacts HandlersThms ReplyThms SpecProtocol ProtocolFacts ProtocolThms Packet SpecPacket Hid SpecHid HidThms Server SpecServer
  ServerFacts ServerThms SpecWire ProtocolProps ProtocolMore LogThms SpecOrder OrderThms SpecIdentify.

(** ** What the handlers were told *)

Lemma serve_join {S} (handle : command -> act S unit) a b (h h1 h2 : hstate S) e1 e2 :
  does (serve handle a) h h1 tt e1 -> does (serve handle b) h1 h2 tt e2 -> does (serve handle (a ++ b)) h h2 tt (e1 ++ e2).
Proof.
  intros [A LA] [B LB]. split; [|now rewrite LB, LA, app_assoc]. clear LA LB.
  revert h A. induction a as [|c a IH]; intros h A; cbn [serve app] in *; [injection A as <-; exact B|].
  unfold seq in *. destruct (handle c h) as [[h' u]|]; [|discriminate A]. now apply IH.
Qed.

Section Told.
  Context (rt : bool) (clock : nat -> datetime) (defs : list ReportDef) (spares : nat -> bytes).

  Definition told (st st' : server DevGeneral) (ps : list bytes) : Prop :=
    exists cs evs, decodes rt (sv_mode st) ps cs
      /\ does (serve (handlePacket std_registry clock DevGeneral_device) cs) (sv_h st) (sv_h st') tt evs
      /\ sv_mode st' = mode_after (sv_mode st) (ids_of ps).

  Lemma told_none st : told st st [].
  Proof. exists [], []. split; [apply decodes_nil|]. split; [|reflexivity]. split; [reflexivity|now rewrite app_nil_r]. Qed.

  Lemma told_app st st1 st2 a b : told st st1 a -> told st1 st2 b -> told st st2 (a ++ b).
  Proof.
    intros (cs & evs & D & S & M) (cs2 & evs2 & D2 & S2 & M2). exists (cs ++ cs2), (evs ++ evs2).
    split; [exact (decodes_app rt _ a cs _ b cs2 D M D2)|]. split; [eapply serve_join; eassumption|].
    now rewrite M2, M, ids_app, mode_after_app.
  Qed.

  Theorem wire_told reads pss n : usable defs -> arrives defs spares n reads pss ->
    forall fuel fuel2 st o st' w, sound st -> List.length reads < fuel -> List.length reads < fuel2 ->
    processFrames_loop fuel rt std_registry clock DevGeneral_device
      (hid_transport fuel2 defs spares wire_read wire_write) st ((reads, o), n) = done (st', w) ->
    told st st' (List.concat pss).
  Proof.
    intros U. induction 1 as [n reads rs E P|n taken rest rs E P|n taken rest rs x pss E P X _ IH|n taken rest rs last f ps pss E P LV EN F H _ IH];
      intros fuel fuel2 st o st' w S L L2; (destruct fuel as [|fuel]; [lia|]); cbn [List.concat];
      cbn [processFrames_loop].
    - assert (R : exists b, ReadFrame defs [] (map ReadReport (reads ++ [])) = Ret (map ReadReport [], b, inr EOF)).
      { apply ReadFrame_err_iff. exists rs. rewrite app_nil_r. destruct P. split; [assumption|]. split; [assumption|].
        right. right. rewrite E. auto. }
      destruct R as [b R]. apply (wire_frame defs fuel2 _ _ o) in R; [|rewrite app_nil_r; exact L2].
      rewrite app_nil_r in R. rewrite (wire_transport _ _ spares _ _ _ _ n R). cbn [io_bind done].
      intros [= <- _]. apply told_none.
    - assert (R : exists b, ReadFrame defs [] (map ReadReport (taken ++ rest)) = Ret (map ReadReport rest, b, inr EOF)).
      { apply ReadFrame_err_iff. exists rs. destruct P. split; [assumption|]. split; [assumption|].
        left. rewrite map_app, E, <- app_assoc. reflexivity. }
      destruct R as [b R]. apply (wire_frame defs fuel2 _ _ o) in R; [|exact L2].
      rewrite (wire_transport _ _ spares _ _ _ _ n R). cbn [io_bind done].
      intros [= <- _]. apply told_none.
    - assert (R : exists e, e <> EOF /\ exists b, ReadFrame defs [] (map ReadReport (taken ++ rest)) = Ret (map ReadReport rest, b, inr e)).
      { exists (match x with inr e => e | inl _ => errReportID end). split; [destruct x; [discriminate|exact X]|].
        apply ReadFrame_err_iff. exists rs. destruct P. split; [assumption|]. split; [assumption|].
        rewrite map_app, E, <- app_assoc. destruct x as [r|e]; [right; left; exists r; auto|left; reflexivity]. }
      destruct R as (e & N & b & R). apply (wire_frame defs fuel2 _ _ o) in R; [|exact L2].
      rewrite (wire_transport _ _ spares _ _ _ _ n R). cbn [io_bind done].
      assert (T : 0 < List.length taken).
      { apply (f_equal (@List.length _)) in E. rewrite app_length, !map_length in E. cbn in E. lia. }
      rewrite app_length in L, L2. specialize (IH fuel fuel2 st o st' w S ltac:(lia) ltac:(lia)).
      destruct e; [now elim N|exact IH..].
    - assert (R : ReadFrame defs [] (map ReadReport (taken ++ rest)) = Ret (map ReadReport rest, f, inl f)).
      { apply ReadFrame_ok_iff. split; [reflexivity|]. exists rs, last. destruct P as [P1 P2].
        split; [now rewrite map_app, E|]. split; [apply Forall_app; auto|]. auto. }
      apply (wire_frame defs fuel2 _ _ o) in R; [|exact L2]. rewrite (wire_transport _ _ spares _ _ _ _ n R). cbn [io_bind done].
      assert (T : 0 < List.length taken).
      { apply (f_equal (@List.length _)) in E. rewrite !map_length, app_length in E. cbn in E. lia. }
      rewrite app_length in L, L2.
      destruct (process_frame_run rt clock (hid_transport fuel2 defs spares wire_read wire_write) st (rest, o, Datatypes.S n)
                  (mkSlice f (spares n)) S) as [(fs & st1 & A & S1 & Er)|[_ Er]]; rewrite Er; [|discriminate].
      destruct (wire_fed defs fuel2 spares fs U rest o (Datatypes.S n)) as (o1 & D1 & Fd). rewrite Fd. cbn [io_bind done].
      intros R'. apply (IH fuel fuel2 st1 _ st' w S1 ltac:(lia) ltac:(lia)) in R'. refine (told_app _ _ _ _ _ _ R').
      destruct A as (ps2 & cs & evs & H2 & D & Sv & _ & M). pose proof (holds_unique _ _ _ H H2) as <-. exists cs, evs. auto.
  Qed.
End Told.

(** ** Sections *)

Lemma mode_of_packet e p : numbers_behind e p = mode_after e (ids_of [p]).
Proof.
  pose proof (split_packet p) as SP. unfold ids_of. cbn [flat_map]. rewrite app_nil_r.
  destruct (split_id p) as [[pre b]|] eqn:S.
  - destruct SP as (id & -> & _ & <- & W). rewrite <- (switched_mode e id W).
    pose proof (split_parts _ _ _ S) as ->. unfold split_id in S.
    destruct (id_prefix id) as [|x [|y l]] eqn:P.
    + unfold id_prefix in P. destruct (_ =? 4)%N; discriminate P.
    + unfold id_prefix in P. destruct (_ =? 4)%N; discriminate P.
    + destruct x; try reflexivity. assert (l = []) as ->.
      { unfold id_prefix in P. destruct (_ =? 4)%N; [discriminate P|congruence]. }
      destruct y; reflexivity.
  - rewrite SP. cbn [mode_after]. unfold split_id in S. destruct p as [|x p]; [reflexivity|].
    destruct x; try reflexivity. destruct p as [|y p]; [reflexivity|]. cbn in S. discriminate S.
Qed.

Lemma lookup_in reg id n mode t b : Lookup reg id n mode = Some (mkLookup t b) -> In (id, t) reg.
Proof.
  intros H. apply types_of_in.
  destruct (Lookup_Some reg id n mode t b H) as [(pre & post & -> & _) | (-> & _)]; [apply in_elt | now left].
Qed.

Lemma cert_id id : In (id, general_RetDevAuthenticationInfo) std_registry -> id = 21%N.
Proof.
  intros I. assert (F : In (id, general_RetDevAuthenticationInfo) (filter (fun e => pty_index (snd e) =? pty_index general_RetDevAuthenticationInfo) std_registry)).
  { apply filter_In. split; [exact I|]. cbn [snd]. apply Nat.eqb_refl. }
  revert F. vm_compute. intros [[= <-]|[]]. reflexivity.
Qed.

Lemma section_none e p id : packet_id p = Some id -> id <> 21%N -> section_of e p = None.
Proof.
  intros P N. destruct p as [|x [|y r]]; [reflexivity| |]; unfold section_of.
  - destruct x; reflexivity.
  - destruct x; try reflexivity. destruct y; try reflexivity. exfalso. apply N. cbn in P. congruence.
Qed.

Lemma section_short e p : packet_id p = None -> section_of e p = None.
Proof.
  intros P. destruct p as [|x [|y r]]; [reflexivity| |]; unfold section_of.
  - destruct x; reflexivity.
  - destruct x; try reflexivity. discriminate P.
Qed.

Lemma section_packet p : packet_id p = Some 21%N -> p = x00 :: x15 :: packet_body p.
Proof.
  pose proof (split_packet p) as SP. destruct (split_id p) as [[pre b]|] eqn:S; [|congruence].
  destruct SP as (id & P & B & I & _). rewrite P. intros [= ->]. rewrite (split_parts _ _ _ S), <- I in *.
  rewrite B. reflexivity.
Qed.

Lemma cert_lookup n e : Lookup std_registry 21 n e = Some (mkLookup general_RetDevAuthenticationInfo e).
Proof. reflexivity. Qed.

Lemma decoded_section rt e p e1 c x : UnmarshalCmd rt std_registry e p = Ret (e1, c, x) ->
  section c = section_of e p /\ e1 = numbers_behind e p /\ (LingoID (cmd_id c) <> LingoGeneralID -> section c = None).
Proof.
  intros U. pose proof (unmarshal_mode _ _ _ _ _ _ U) as M. rewrite <- mode_of_packet in M.
  enough (X : section c = section_of e p /\ (LingoID (cmd_id c) <> LingoGeneralID -> section c = None)) by tauto.
  destruct (packet_id p) as [id|] eqn:P.
  2:{ destruct (UnmarshalCmd_short rt std_registry e p P) as (y & E & _). rewrite E in U. injection U as _ <- _.
      rewrite (section_short e p P). split; reflexivity. }
  destruct (N.eq_dec id 21) as [->|N].
  - pose proof (UnmarshalCmd_found rt std_registry e p 21 general_RetDevAuthenticationInfo (mode_after e [21%N]) P (cert_lookup _ _)) as F.
    rewrite U in F. pose proof (section_packet p P) as Pp. remember (packet_body p) as b eqn:B. clear B.
    change (mode_after e [21%N]) with e in F. cbv zeta in F. subst p. cbn [section_of].
    split; [|intros NL; exfalso; apply NL; clear -F].
    + destruct (e && Nat.ltb (List.length b) 2) eqn:SH.
      * injection F as _ -> _. apply andb_prop in SH as [-> SH]. destruct b as [|y [|z b]]; [reflexivity|reflexivity|discriminate SH].
      * pose proof (cert_section rt (if e then skipn 2 b else b)) as C. clear SH. revert C F. generalize (if e then skipn 2 b else b). intros d C F.
        destruct d as [|major [|minor r]]; [destruct C as (y & C); rewrite C in F; cbn [bind] in F; injection F as _ -> _; reflexivity..|].
        destruct (b2n major <? 2)%N eqn:V.
        -- rewrite C in F. cbn [bind] in F. injection F as _ -> _. unfold section. cbn [cmd_payload].
           replace (2 <=? b2n major)%N with false by lia. destruct r as [|? [|? ?]]; reflexivity.
        -- destruct r as [|cur [|lst r]]; [destruct C as (y & C); rewrite C in F; cbn [bind] in F; injection F as _ -> _; reflexivity..|].
           rewrite C in F. cbn [bind] in F. injection F as _ -> _. unfold section. cbn [cmd_payload].
           replace (2 <=? b2n major)%N with true by lia. reflexivity.
    + destruct (e && _); [injection F as _ -> _; reflexivity|].
      destruct (payload_unmarshal rt general_RetDevAuthenticationInfo _) as [[[|] [q|y]]|]; cbn [bind] in F; try discriminate F; injection F as _ -> _; reflexivity.
  - rewrite (section_none e p id P N). enough (X : section c = None) by auto.
    destruct (Lookup std_registry id (List.length (packet_body p)) (mode_after e [id])) as [[t b]|] eqn:L.
    + rewrite (UnmarshalCmd_found rt std_registry e p id t b P L) in U. cbv zeta in U.
      destruct (b && _); [injection U as _ <- _; reflexivity|].
      destruct (payload_unmarshal rt t _) as [[[|] [q|y]]|] eqn:PU; cbn [bind] in U; try discriminate U; injection U as _ <- _; try reflexivity;
        apply payload_unmarshal_type in PU; unfold section; cbn [cmd_payload];
        (destruct q as [t' vs| | | | | | | |]; try reflexivity; cbn [payload_type] in PU; injection PU as ->;
         destruct t; try reflexivity; exfalso; apply N, cert_id; exact (lookup_in _ _ _ _ _ _ L)).
    + rewrite (UnmarshalCmd_unknown rt std_registry e p id P L) in U. injection U as _ <- _. reflexivity.
Qed.

(** ** Certificates *)

Lemma packet_cert clock c (h : hstate DevGeneral) : request_ok c -> (LingoID (cmd_id c) <> LingoGeneralID -> section c = None) ->
  post (handlePacket std_registry clock DevGeneral_device c) h (fun h' _ evs =>
    h_cert h' = cert_next (h_cert h) c
    /\ certs evs = match section c with
                   | Some (n, last, _) => if (last <=? n)%N then [cert_next (h_cert h) c] else []
                   | None => []
                   end).
Proof.
  intros Hok HN. destruct (N.eq_dec (LingoID (cmd_id c)) LingoGeneralID) as [HL|HL].
  - unfold handlePacket. rewrite HL. cbv zeta. change (LingoGeneralID =? LingoGeneralID)%N with true. cbv iota.
    apply post_seq. eapply post_weaken with (Q := fun h' _ evs => h_cert h' = h_cert h /\ certs evs = []).
    + unfold audio_Start. by_payload c; cbv beta zeta iota; hrun; auto.
    + intros h1 u e1 (C & K). eapply post_weaken; [apply (general_cert DevGeneral_device c h1 Hok)|].
      intros h2 u2 e2 (C2 & K2). rewrite certs_app, K, K2, C2, C. auto.
  - eapply post_weaken; [apply (packet_other_step clock c h HL)|]. intros h1 u e1 (_ & C & K). specialize (HN HL).
    unfold cert_next, certs. rewrite HN, K, C. auto.
Qed.

Lemma dec_certs rt clock e ps cs e' : dec rt e ps cs e' -> forall h,
  post (serve (handlePacket std_registry clock DevGeneral_device) cs) h (fun _ _ evs => certs evs = completed (h_cert h) (sections_in e ps)).
Proof.
  induction 1 as [e|e p ps e1 c x cs e' U _ IH]; intros h; cbn [serve]; [now apply post_ret|].
  destruct (decoded_section _ _ _ _ _ _ U) as (S & M & N). apply post_seq.
  eapply post_weaken; [apply (packet_cert clock c h (decoded_ok _ _ _ _ _ _ _ U) N)|]. intros h1 u e1' (C1 & K1).
  eapply post_weaken; [apply IH|]. intros h2 u2 e2 K2. rewrite certs_app, K1, K2, C1. cbn [sections_in]. rewrite <- S, <- M. unfold cert_next.
  destruct (section c) as [[[n last] d]|]; reflexivity.
Qed.

Lemma told_certs rt clock st st' ps : told rt clock st st' ps ->
  certs (h_log (sv_h st')) = certs (h_log (sv_h st)) ++ completed (h_cert (sv_h st)) (sections_in (sv_mode st) ps).
Proof.
  intros (cs & evs & D & S & _). apply decodes_dec in D. pose proof (does_post _ _ _ _ _ _ S (dec_certs rt clock _ _ _ _ D _)) as K.
  destruct S as [_ L]. now rewrite L, certs_app, K.
Qed.

Lemma completed_hand_over kept l : completed kept l = hand_over kept l.
Proof. revert kept. induction l as [|[[n last] d] l IH]; intros kept; [reflexivity|]. cbn [completed hand_over]. now rewrite IH. Qed.

Lemma completed_whole ds kept : ds <> [] -> completed kept (whole_certificate ds) = [List.concat ds].
Proof. rewrite completed_hand_over. apply hand_over_whole. Qed.

(** ** Sections among other packets *)

Lemma free_section p e : free p -> section_of e p = None /\ numbers_behind e p = e.
Proof.
  intros F. destruct p as [|x [|y r]]; [split; reflexivity|split; destruct x; reflexivity|].
  unfold free in F. cbn [firstn tied In] in F.
  unfold section_of, numbers_behind. destruct x; try (split; reflexivity). destruct y; try (split; reflexivity); exfalso; tauto.
Qed.

Lemma sections_app e a b : sections_in e (a ++ b) = sections_in e a ++ sections_in (fold_left numbers_behind a e) b.
Proof. revert e. induction a as [|p a IH]; intros e; [reflexivity|]. cbn [app sections_in fold_left]. now rewrite IH, app_assoc. Qed.

Lemma free_sections ps e : Forall free ps -> sections_in e ps = [] /\ fold_left numbers_behind ps e = e.
Proof.
  intros F. induction F as [|p ps P _ IH]; [split; reflexivity|]. destruct (free_section p e P) as [A B]. cbn [sections_in fold_left]. now rewrite A, B.
Qed.

Lemma among_sections steps pss l : among free steps pss l -> forall e, sections_in e (List.concat pss) = sections_in e (map fst steps).
Proof.
  induction 1 as [|s steps pss l _ IH|ps steps pss l F _ IH]; intros e; [reflexivity|cbn [List.concat app map sections_in]; now rewrite IH|].
  cbn [List.concat]. rewrite sections_app. destruct (free_sections ps e F) as [-> ->]. apply IH.
Qed.

Lemma presented_sections xs : Forall proper xs -> forall i last, i + List.length xs <= 256 -> last < 256 ->
  sections_in true (map fst (presents_from i last xs))
  = map (fun '(i, d) => (N.of_nat i, N.of_nat last, d)) (combine (List.seq i (List.length xs)) (map pt_data xs)).
Proof.
  induction 1 as [|x xs [T V] _ IH]; intros i last I L; [reflexivity|].
  cbn [List.length presents_from map fst sections_in List.seq combine] in *. unfold presents at 1 2. cbn [fst].
  destruct x as [t major minor d]. cbn [pt_trx pt_major pt_minor pt_data] in *. destruct t as [|a [|b [|]]]; try discriminate T.
  cbn [app section_of numbers_behind skipn]. replace (2 <=? b2n major)%N with true by lia. cbn [app]. f_equal.
  - rewrite !b2n_n2b, !N.mod_small by lia. reflexivity.
  - apply IH; lia.
Qed.

Lemma handshake_sections t1 t2 xs e : List.length t1 = 2 -> List.length t2 = 2 -> Forall proper xs -> xs <> [] -> List.length xs <= 256 ->
  sections_in e (map fst (handshake t1 t2 xs)) = whole_certificate (map pt_data xs).
Proof.
  intros T1 T2 P NE L. unfold handshake. cbn [map fst starts finishes].
  destruct t1 as [|a [|b [|]]]; try discriminate T1. destruct t2 as [|c [|d [|]]]; try discriminate T2.
  cbn [app sections_in section_of numbers_behind]. rewrite presented_sections; [|exact P|lia|destruct xs; [now elim NE|cbn [List.length] in *; lia]].
  unfold whole_certificate. rewrite map_length. f_equal.
  unfold len. rewrite map_length. destruct xs; [now elim NE|]. cbn [List.length]. 
  replace (N.of_nat (S (List.length xs)) - 1)%N with (N.of_nat (S (List.length xs) - 1)) by lia. reflexivity.
Qed.

(** ** Replies *)

Lemma receive_starts rt clock m t : List.length t = 2 ->
  receive_frame rt clock m [fst (starts t)] = Some (mkMemory true (extended m) 0 (readings m), map frame_bytes (snd (starts t))).
Proof. intros T. destruct t as [|a [|b [|]]]; try discriminate T. destruct m. reflexivity. Qed.

Lemma receive_finishes rt clock x k t : List.length t = 2 ->
  receive_frame rt clock (mkMemory true x 0 k) [fst (finishes t)] = Some (mkMemory true x 1 k, map frame_bytes (snd (finishes t))).
Proof. intros T. destruct t as [|a [|b [|]]]; try discriminate T. reflexivity. Qed.

Lemma receive_presents rt clock x k i last y : proper y -> i < 256 -> last < 256 ->
  receive_frame rt clock (mkMemory true x 1 k) [fst (presents i last y)]
  = Some (mkMemory true x (if Nat.ltb i last then 1 else 2) k, map frame_bytes (snd (presents i last y))).
Proof.
  intros [T V] I L. unfold presents. destruct y as [t major minor d]. cbn [pt_trx pt_major pt_minor pt_data fst snd] in *.
  destruct t as [|a [|b [|]]]; try discriminate T.
  assert (C : forall cur lst, receive_frame rt clock (mkMemory true x 1 k) [[x00; x15; a; b; major; minor; cur; lst] ++ d]
    = Some (mkMemory true x (if (b2n cur <? b2n lst)%N then 1 else 2) k,
        map frame_bytes (if (b2n cur <? b2n lst)%N then [[x00; x02; a; b; x00; x15]]
                         else [[x0a; x02; x00; x02]; [x00; x16; a; b; x00]; [x00; x17; a; b] ++ repeat x00 21]))).
  { intros cur lst. unfold receive_frame, receive_all, receive.
    change (split_id ([x00; x15; a; b; major; minor; cur; lst] ++ d)) with (Some ([x00; x15], [a; b; major; minor; cur; lst] ++ d)).
    assert (R : filter (fun r : bytes * option nat * reaction => if list_eq_dec Byte.byte_eq_dec [x00; x15] (fst (fst r)) then true else false) (requests rt clock)
                = [([x00; x15], None, certificate)]) by reflexivity.
    cbv beta iota zeta. rewrite R. cbn [numbered extended last_number readings switched].
    change (understand true [([x00; x15], None, certificate)] ([a; b; major; minor; cur; lst] ++ d))
      with (Some (Some [a; b], [major; minor; cur; lst] ++ d, certificate)).
    cbv beta iota. unfold certificate. cbn [app]. replace (b2n major <? 2)%N with false by lia. destruct (b2n cur <? b2n lst)%N; reflexivity. }
  specialize (C (n2b (N.of_nat i)) (n2b (N.of_nat last))). rewrite !b2n_n2b, !N.mod_small in C by lia.
  cbn [app] in *. rewrite C. replace (N.of_nat i <? N.of_nat last)%N with (Nat.ltb i last) by lia. destruct (Nat.ltb i last); reflexivity.
Qed.

(** ** Steps among other frames *)

Section Steps.
  Context (rt : bool) (clock : nat -> date).

  Fixpoint chained (m : memory) (steps : list step) (m' : memory) : Prop :=
    match steps with
    | [] => m' = m
    | s :: steps' => exists m1, receive_frame rt clock m [fst s] = Some (m1, map frame_bytes (snd s)) /\ chained m1 steps' m'
    end.

  Lemma among_conversation steps pss l : among free steps pss l -> forall m m', chained m steps m' ->
    conversation rt clock m pss = None /\ (exists ps m1, In ps pss /\ Forall free ps /\ receive_frame rt clock m1 ps = None)
    \/ exists fss, conversation rt clock m pss = Some (m', List.concat fss)
         /\ Forall2 (fun x fs => match snd x with
                                 | Some rs => fs = map frame_bytes rs
                                 | None => exists m1, receive_frame rt clock m1 (fst x) = Some (m1, fs)
                                 end) (combine pss l) fss.
  Proof.
    induction 1 as [|s steps pss l _ IH|ps steps pss l F _ IH]; intros m m' C; cbn [chained conversation combine] in *.
    - subst m'. right. exists []. split; [reflexivity|apply Forall2_nil].
    - destruct C as (m1 & R & C). rewrite R. destruct (IH m1 m' C) as [[-> (ps & m2 & I & X)]|(fss & -> & G)].
      + left. split; [reflexivity|]. exists ps, m2. split; [now right|exact X].
      + right. exists (map frame_bytes (snd s) :: fss). split; [reflexivity|]. now apply Forall2_cons.
    - destruct (frame_steady rt clock ps F (numbered m)) as [Z|(fs & Y)].
      + left. rewrite (Z m eq_refl). split; [reflexivity|]. exists ps, m. split; [now left|]. split; [exact F|now apply Z].
      + rewrite (Y m eq_refl). destruct (IH m m' C) as [[-> (ps' & m2 & I & X)]|(fss & -> & G)].
        * left. split; [reflexivity|]. exists ps', m2. split; [now right|exact X].
        * right. exists (fs :: fss). split; [reflexivity|]. apply Forall2_cons; [cbn [fst snd]; exists m; now apply Y|exact G].
  Qed.

  Lemma presents_chained x k xs : Forall proper xs -> xs <> [] -> forall i last, i + List.length xs = S last -> last < 256 ->
    chained (mkMemory true x 1 k) (presents_from i last xs) (mkMemory true x 2 k).
  Proof.
    induction 1 as [|y xs P _ IH]; intros NE i last I L; [now elim NE|]. cbn [presents_from chained List.length] in *.
    eexists. split; [apply receive_presents; [exact P|lia|lia]|]. destruct (Nat.ltb_spec i last) as [B|B].
    - apply IH; [|lia|lia]. destruct xs; [cbn in I; lia|discriminate].
    - destruct xs; [reflexivity|]. cbn [List.length] in I. lia.
  Qed.

  Lemma handshake_chained m t1 t2 xs : List.length t1 = 2 -> List.length t2 = 2 -> Forall proper xs -> xs <> [] -> List.length xs <= 256 ->
    chained m (handshake t1 t2 xs) (mkMemory true (extended m) 2 (readings m)).
  Proof.
    intros T1 T2 P NE L. unfold handshake. cbn [chained]. eexists. split; [now apply receive_starts|].
    eexists. split; [now apply receive_finishes|]. apply presents_chained; [exact P|exact NE| |]; (destruct xs; [now elim NE|cbn [List.length] in *; lia]).
  Qed.
End Steps.
