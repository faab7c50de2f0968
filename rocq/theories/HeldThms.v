(** Lemmas for C116. *)
From Coq Require Import ZifyBool ZifyNat ZifyN Lia.
From Verif Require Import Base BaseFacts GoTypes Types Payload PayloadFacts PayloadThms Lingo LingoFacts Command CommandFacts CommandThms SpecPayload SpecCommand
  Handlers SpecHandlers HandlersFacts HandlersThms ReplyThms SpecProtocol ProtocolFacts ProtocolThms ProtocolTokens Packet SpecPacket Hid SpecHid HidThms Server SpecServer
  ServerFacts ServerThms SpecWire ProtocolProps ProtocolMore LogThms SpecOrder OrderThms SpecIdentify IdentifyThms SpecHeld.

(** ** Decoding *)

Lemma id_type id t : In (id, t) std_registry -> t = general_StartIDPS \/ t = general_SetFIDTokenValues -> id = 56%N \/ id = 57%N.
Proof.
  intros I [-> | ->].
  - assert (F : In (id, general_StartIDPS) (filter (fun e => pty_index (snd e) =? pty_index general_StartIDPS) std_registry)).
    { apply filter_In. split; [exact I|]. cbn [snd]. apply Nat.eqb_refl. }
    revert F. vm_compute. intros [[= <-]|[]]. auto.
  - assert (F : In (id, general_SetFIDTokenValues) (filter (fun e => pty_index (snd e) =? pty_index general_SetFIDTokenValues) std_registry)).
    { apply filter_In. split; [exact I|]. cbn [snd]. apply Nat.eqb_refl. }
    revert F. vm_compute. intros [[= <-]|[]]. auto.
Qed.

Definition tokens_next (n : nat) (c : command) : nat :=
  match cmd_payload c with
  | Some (Pst general_StartIDPS _) => 0
  | Some (PTokens l) => n + List.length l
  | _ => n
  end.

Lemma packet_of p id : packet_id p = Some id -> p = id_prefix id ++ packet_body p.
Proof.
  pose proof (split_packet p) as SP. destruct (split_id p) as [[pre b]|] eqn:S; [|congruence].
  destruct SP as (id' & P & B & I & _). rewrite P. intros [= ->]. now rewrite (split_parts _ _ _ S), <- I, B at 1.
Qed.

Lemma start_lookup n : Lookup std_registry 56 n true = Some (mkLookup general_StartIDPS (negb (n =? 0))).
Proof. destruct n as [|[|[|n]]]; reflexivity. Qed.

Lemma tokens_lookup n e : Lookup std_registry 57 n e = Some (mkLookup general_SetFIDTokenValues e).
Proof. reflexivity. Qed.

Lemma decoded_tokens rt e p e1 c x : UnmarshalCmd rt std_registry e p = Ret (e1, c, x) ->
  forall n, tokens_next n c = (if forgets p then 0 else n + brings rt e p) /\ (LingoID (cmd_id c) <> LingoGeneralID -> tokens_next n c = n).
Proof.
  intros U n. destruct (packet_id p) as [id|] eqn:P.
  2:{ destruct (UnmarshalCmd_short rt std_registry e p P) as (y & E & _). rewrite E in U. injection U as _ <- _. unfold tokens_next. cbn [cmd_payload].
      enough (forgets p = false /\ brings rt e p = 0) as [-> ->] by (split; [lia|reflexivity]).
      destruct p as [|a [|b r]]; [split; reflexivity|destruct a; split; reflexivity|]. destruct a; try (split; reflexivity). discriminate P. }
  pose proof (packet_of p id P) as PE.
  destruct (N.eq_dec id 56) as [->|N56]; [|destruct (N.eq_dec id 57) as [->|N57]].
  - change (id_prefix 56) with [x00; x38] in PE.
    pose proof (UnmarshalCmd_found rt std_registry e p 56 general_StartIDPS _ P (start_lookup _)) as F. rewrite U in F. cbv zeta in F.
    remember (packet_body p) as b eqn:B. clear B. subst p. cbn [app forgets].
    destruct b as [|b1 [|b2 b]]; cbn [List.length Nat.eqb negb andb Nat.ltb Nat.leb skipn] in F |- *.
    + cbn in F. injection F as _ -> _. split; [reflexivity|intros NL; now elim NL].
    + injection F as _ -> _. split; [cbn; lia|reflexivity].
    + cbn in F. injection F as _ -> _. split; [reflexivity|intros NL; now elim NL].
  - change (id_prefix 57) with [x00; x39] in PE.
    pose proof (UnmarshalCmd_found rt std_registry e p 57 general_SetFIDTokenValues e P (tokens_lookup _ _)) as F. rewrite U in F. cbv zeta in F.
    change (mode_after e [57%N]) with e in F. remember (packet_body p) as b eqn:B. clear B. subst p. cbn [app forgets brings].
    destruct (e && Nat.ltb (List.length b) 2) eqn:SH.
    { injection F as _ -> _. apply andb_prop in SH as [-> SH]. destruct b as [|y [|z b]]; [| |discriminate SH]; cbn; split; auto. }
    clear SH. revert F. generalize (if e then skipn 2 b else b). intros d F. cbv beta iota zeta delta [payload_unmarshal] in F.
    unfold tokens_unmarshal in F. destruct d as [|k r]; [cbn in F; injection F as _ -> _; cbn; split; auto|].
    pose proof (tokens_read rt (N.to_nat (b2n k)) r) as T. destruct (tokens rt (N.to_nat (b2n k)) r) as [l| |].
    + destruct T as (vs & T & FF). rewrite T in F. cbn [bind] in F. injection F as _ -> _. unfold tokens_next. cbn [cmd_payload].
      apply Forall2_len in FF. unfold len in FF. split; [lia|]. intros NL. now elim NL.
    + destruct T as (y & T). rewrite T in F. cbn [bind] in F. injection F as _ -> _. unfold tokens_next. cbn [cmd_payload]. split; [lia|reflexivity].
    + rewrite T in F. discriminate F.
  - assert (forgets p = false /\ brings rt e p = 0) as [-> ->].
    { clear -P N56 N57. destruct p as [|a [|b r]]; [split; reflexivity|destruct a; split; reflexivity|].
      destruct a; try (split; reflexivity). destruct b; try (split; reflexivity); exfalso; cbn in P; congruence. }
    enough (X : tokens_next n c = n) by (split; [lia|auto]).
    destruct (Lookup std_registry id (List.length (packet_body p)) (mode_after e [id])) as [[t b]|] eqn:L.
    + rewrite (UnmarshalCmd_found rt std_registry e p id t b P L) in U. cbv zeta in U.
      destruct (b && _); [injection U as _ <- _; reflexivity|].
      destruct (payload_unmarshal rt t _) as [[[|] [q|y]]|] eqn:PU; cbn [bind] in U; try discriminate U; injection U as _ <- _; try reflexivity;
        apply payload_unmarshal_type in PU; unfold tokens_next; cbn [cmd_payload];
        (assert (NT : t <> general_StartIDPS /\ t <> general_SetFIDTokenValues) by
           (split; intros ->; destruct (id_type id _ (lookup_in _ _ _ _ _ _ L)) as [-> | ->]; auto));
        (destruct q as [t' vs| | | | | | | |]; try reflexivity; cbn [payload_type] in PU;
         [injection PU as ->; destruct t; try reflexivity; exfalso; tauto|exfalso; apply (proj2 NT); congruence]).
    + rewrite (UnmarshalCmd_unknown rt std_registry e p id P L) in U. injection U as _ <- _. reflexivity.
Qed.

(** ** What the handlers leave behind *)

Lemma packet_tokens clock c (h : hstate DevGeneral) : request_ok c -> (LingoID (cmd_id c) <> LingoGeneralID -> forall n, tokens_next n c = n) ->
  post (handlePacket std_registry clock DevGeneral_device c) h (fun h' _ _ =>
    List.length (dg_tokens (h_dev h')) = tokens_next (List.length (dg_tokens (h_dev h))) c).
Proof.
  intros Hok HN. destruct (N.eq_dec (LingoID (cmd_id c)) LingoGeneralID) as [HL|HL].
  - eapply post_weaken; [apply (packet_general_step clock c h Hok HL)|]. intros h1 u e1 (T & _). rewrite T. unfold tokens_next. cbn [tokens_since_start].
    destruct (cmd_payload c) as [[t vs| | | | | | | |]|]; try reflexivity; [destruct t; reflexivity|]. apply app_length.
  - eapply post_weaken; [apply (packet_other_step clock c h HL)|]. intros h1 u e1 (D & _). now rewrite D, (HN HL).
Qed.

Lemma dec_held rt clock e ps cs e' : dec rt e ps cs e' -> forall h,
  post (serve (handlePacket std_registry clock DevGeneral_device) cs) h (fun h' _ _ =>
    h_cert h' = collected (h_cert h) (sections_in e ps)
    /\ List.length (dg_tokens (h_dev h')) = tokens_held rt e (List.length (dg_tokens (h_dev h))) ps).
Proof.
  induction 1 as [e|e p ps e1 c x cs e' U _ IH]; intros h; cbn [serve]; [now apply post_ret|].
  destruct (decoded_section _ _ _ _ _ _ U) as (S & M & N). pose proof (decoded_tokens _ _ _ _ _ _ U) as T. apply post_seq.
  eapply post_weaken.
  { apply post_both; [apply (packet_cert clock c h (decoded_ok _ _ _ _ _ _ _ U) N)|].
    apply (packet_tokens clock c h (decoded_ok _ _ _ _ _ _ _ U)). intros HL n. exact (proj2 (T n) HL). }
  intros h1 u e1' ((C1 & _) & T1). eapply post_weaken; [apply IH|]. intros h2 u2 e2 (C2 & T2). rewrite C2, T2, C1, T1. cbn [sections_in tokens_held].
  rewrite <- M, <- (proj1 (T _)). split; [|reflexivity]. rewrite <- S. unfold cert_next. destruct (section c) as [[[n last] d]|]; reflexivity.
Qed.

Lemma told_held rt clock st st' ps : told rt clock st st' ps ->
  h_cert (sv_h st') = collected (h_cert (sv_h st)) (sections_in (sv_mode st) ps)
  /\ List.length (dg_tokens (h_dev (sv_h st'))) = tokens_held rt (sv_mode st) (List.length (dg_tokens (h_dev (sv_h st)))) ps.
Proof. intros (cs & evs & D & S & _). apply decodes_dec in D. exact (does_post _ _ _ _ _ _ S (dec_held rt clock _ _ _ _ D _)). Qed.

(** ** Amounts *)

Lemma tokens_bytes rt n r l : tokens rt n r = AcceptedAll l -> 3 * List.length l <= List.length r.
Proof.
  revert r l. induction n as [|n IH]; intros r l; [intros [= <-]; cbn; lia|]. destruct r as [|k r]; [discriminate|]. cbn [tokens]. cbv zeta.
  specialize (IH (skipn (N.to_nat (b2n k)) r)). rewrite skipn_length in IH. pose proof (firstn_length (N.to_nat (b2n k)) r) as LF.
  destruct (firstn (N.to_nat (b2n k)) r) as [|a [|b d]]; try discriminate. cbn [List.length] in *.
  assert (Z : forall x, and_then x (tokens rt n (skipn (N.to_nat (b2n k)) r)) = AcceptedAll l -> 3 * List.length l <= S (List.length r)).
  { intros x. destruct (tokens rt n _) as [l'| |]; [|discriminate..]. intros [= <-]. specialize (IH l' eq_refl). cbn [List.length]. lia. }
  destruct (SpecProtocol.token _); [apply Z|discriminate| |discriminate]. destruct rt; [discriminate|apply Z].
Qed.

Lemma brings_bytes rt e p : 3 * brings rt e p <= List.length p.
Proof.
  unfold brings. destruct p as [|a [|b r]]; [cbn; lia|destruct a; cbn; lia|]. destruct a; try (cbn; lia). destruct b; try (cbn; lia).
  assert (L : List.length (if e then skipn 2 r else r) <= List.length r) by (destruct e; [rewrite skipn_length|]; lia).
  destruct (if e then skipn 2 r else r) as [|n d]; [lia|]. destruct (tokens rt _ d) as [l| |] eqn:T; [|lia..]. apply tokens_bytes in T. cbn [List.length] in *. lia.
Qed.

Lemma section_bytes e p x y d : section_of e p = Some (x, y, d) -> List.length d <= List.length p /\ brings true e p = 0 /\ brings false e p = 0.
Proof.
  unfold section_of, brings. destruct p as [|a [|b r]]; [discriminate|destruct a; discriminate|]. destruct a; try discriminate. destruct b; try discriminate.
  assert (L : List.length (if e then skipn 2 r else r) <= List.length r) by (destruct e; [rewrite skipn_length|]; lia).
  destruct (if e then skipn 2 r else r) as [|? [|? [|? [|? q]]]]; try discriminate. destruct (2 <=? _)%N; [|discriminate]. intros [= _ _ <-]. cbn [List.length] in *. lia.
Qed.

Lemma held_bytes rt ps : forall e held n,
  List.length (collected held (sections_in e ps)) + 3 * tokens_held rt e n ps <= List.length held + 3 * n + volume ps.
Proof.
  induction ps as [|p ps IH]; intros e held n; [cbn; lia|]. cbn [sections_in tokens_held]. unfold volume in *. cbn [map list_sum fold_right].
  fold (list_sum (map (@List.length byte) ps)) in *. pose proof (brings_bytes rt e p) as B.
  destruct (section_of e p) as [[[x y] d]|] eqn:S; cbn [app collected].
  - apply section_bytes in S as (L & B1 & B2). assert (BB : brings rt e p = 0) by (destruct rt; assumption). rewrite BB.
    specialize (IH (numbers_behind e p) (if (x =? 0)%N then d else held ++ d) (if forgets p then 0 else n + 0)).
    assert (List.length (if (x =? 0)%N then d else held ++ d) <= List.length held + List.length p) by (destruct (x =? 0)%N; rewrite ?app_length; lia).
    assert ((if forgets p then 0 else n + 0) <= n) by (destruct (forgets p); lia). cbn [list_sum fold_right] in *. lia.
  - specialize (IH (numbers_behind e p) held (if forgets p then 0 else n + brings rt e p)).
    assert (3 * (if forgets p then 0 else n + brings rt e p) <= 3 * n + List.length p) by (destruct (forgets p); lia). lia.
Qed.

(** ** Frames being put together *)

Lemma frame_held defs input : forall b rest buf r, ReadFrame_loop defs b input = Ret (rest, buf, r) ->
  exists used, input = used ++ rest /\ List.length buf <= List.length b + list_sum (map (fun x => match x with inl rep => List.length (rep_Data rep) | inr _ => 0 end) used).
Proof.
  induction input as [|[rep|e] input IH]; intros b rest buf r; cbn [ReadFrame_loop].
  - intros [= <- <- <-]. exists []. split; [reflexivity|cbn; lia].
  - destruct (Find defs _) as [d|x].
    2:{ intros [= <- <- <-]. exists [inl rep]. split; [reflexivity|cbn; lia]. }
    cbv zeta. destruct (_ <? 0)%Z; [discriminate|]. set (n := Z.to_nat _). pose proof (firstn_le_length n (rep_Data rep)) as L0.
    assert (L : List.length (firstn n (rep_Data rep)) <= List.length (rep_Data rep)) by (rewrite firstn_length; lia). clear L0.
    assert (Z : forall b', List.length b' <= List.length b + List.length (rep_Data rep) -> ReadFrame_loop defs b' input = Ret (rest, buf, r) ->
      exists used, inl rep :: input = used ++ rest /\ List.length buf <= List.length b + list_sum (map (fun x : Report + goerr => match x with inl rep => List.length (rep_Data rep) | inr _ => 0 end) used)).
    { intros b' Lb E. destruct (IH _ _ _ _ E) as (used & -> & LE). exists (inl rep :: used). split; [reflexivity|]. cbn [map list_sum fold_right]. cbn [list_sum fold_right] in LE.
      unfold list_sum in LE. lia. }
    destruct (_ =? LinkControlDone)%N.
    { intros [= <- <- <-]. exists [inl rep]. split; [reflexivity|]. cbn. lia. }
    destruct (_ =? LinkControlMoreToFollow)%N; [apply Z; cbn; lia|].
    destruct (_ =? N.lor _ _)%N; [apply Z; rewrite app_length; lia|].
    destruct (_ =? LinkControlContinue)%N; [|apply Z; lia].
    intros [= <- <- <-]. exists [inl rep]. split; [reflexivity|]. rewrite app_length. cbn. lia.
  - intros [= <- <- <-]. exists [inr e]. split; [reflexivity|cbn; lia].
Qed.
