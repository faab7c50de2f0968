(** The requests of SpecProtocol with a content of their own: application launch, certificate
    and identification tokens. *)
From Coq Require Import ZifyBool ZifyNat ZifyN.
From Verif Require Import Base BaseFacts GoTypes GoTypesFacts Types Payload Util Lingo Command
  SpecPayload SpecCommand LingoFacts CommandFacts CommandThms Handlers SpecHandlers HandlersFacts HandlersThms
  SpecProtocol ProtocolFacts.
Ltac Zify.zify_post_hook ::= Z.div_mod_to_equations.
#[local] Opaque std_registry.

Lemma row_27 rt clock : ro rt clock 27.
Proof.
  cbv beta iota delta [ro nth_error request_types requests]. ready. cbv beta iota zeta delta [payload_unmarshal].
  unfold launch. destruct c as [|x [|y [|z c]]]; try reflexivity.
  cbn [applaunch_unmarshal bind List.length Nat.ltb Nat.leb]. enter. unfold HandleGeneral. cbn [cmd_payload cmd_id]. hrun. finish.
Qed.

(** A section of the certificate. *)
Lemma handle_nothing {S} clock (dev : DeviceGeneral S) id tr (h : hstate S) (Q : hstate S -> unit -> list event -> Prop) :
  Q h tt [] -> post (handlePacket std_registry clock dev (mkCmd id tr None)) h Q.
Proof.
  intros H. unfold handlePacket. cbn [cmd_id cmd_payload]. cbv zeta.
  destruct (LingoID id =? LingoGeneralID)%N; [apply post_seq, post_ret; now apply post_ret|].
  destruct (LingoID id =? LingoDisplayRemoteID)%N; [apply post_seq, post_ret; now apply post_ret|].
  destruct (LingoID id =? LingoExtRemoteID)%N; [now apply post_ret|].
  destruct (LingoID id =? LingoDigitalAudioID)%N; now apply post_ret.
Qed.

Lemma said_nothing rt e h tr : (dg_uimode (h_dev h) <= 1)%N -> as_said rt e h tr (Some (mem e h, [])) h tt [].
Proof. intros U. split; [exact U|]. do 2 eexists. split; [reflexivity|]. split; [reflexivity|constructor]. Qed.

Lemma row_10 rt clock : ro rt clock 10.
Proof.
  cbv beta iota delta [ro nth_error request_types requests]. ready. cbv beta iota zeta delta [payload_unmarshal].
  unfold certificate.
  destruct c as [|ma [|mi r]]; [apply handle_nothing, said_nothing, U..|].
  cbn [devauthinfo_unmarshal].
  destruct (N.leb_spec 2 (b2n ma)) as [V|V].
  - replace (b2n ma <? 2)%N with false by lia.
    destruct r as [|s [|l r]]; [apply handle_nothing, said_nothing, U..|].
    conc general_RetDevAuthenticationInfo.
    change (handlePacket std_registry clock DevGeneral_device ?c) with
      (run _ <- (if ((2 <=? b2n ma) && (b2n l <=? b2n s) || (b2n ma <? 2))%N%bool then audio_Start std_registry else ret tt);
       HandleGeneral std_registry DevGeneral_device c).
    unfold HandleGeneral. cbn [cmd_payload cmd_id fu fb nth].
    replace (2 <=? b2n ma)%N with true by lia. replace (b2n ma <? 2)%N with false by lia. cbn [andb]. rewrite Bool.orb_false_r.
    destruct (N.ltb_spec (b2n s) (b2n l)) as [W|W].
    + replace (b2n l <=? b2n s)%N with false by lia. hrun; finish.
    + replace (b2n l <=? b2n s)%N with true by lia. unfold audio_Start. hrun; finish.
  - replace (b2n ma <? 2)%N with true by lia.
    conc general_RetDevAuthenticationInfo.
    change (handlePacket std_registry clock DevGeneral_device ?c) with
      (run _ <- (if ((2 <=? b2n ma) && (0 <=? 0) || (b2n ma <? 2))%N%bool then audio_Start std_registry else ret tt);
       HandleGeneral std_registry DevGeneral_device c).
    unfold HandleGeneral. cbn [cmd_payload cmd_id fu fb nth].
    replace (2 <=? b2n ma)%N with false by lia. replace (b2n ma <? 2)%N with true by lia. cbn [andb orb].
    unfold audio_Start. hrun; finish.
Qed.

(** ** Identification tokens *)

Definition token_by_kind (a b : byte) (r : bytes) : token_result :=
  match token_kind_of (b2n a) (b2n b) with
  | KIdentify => at_least 1 r [a; b; x00]
  | KAccCaps => Accepted [a; b; x00]
  | KAccInfo => match r with
                | i :: _ => if existsb (N.eqb (b2n i)) [1; 4; 5; 6; 7; 8; 9; 11; 12]%N then Accepted [a; b; x00; i]
                            else Unreadable
                | [] => Unreadable
                end
  | KEAProtocol => match r with [] => Crashing | i :: _ => Accepted [a; b; x00; i] end
  | KFixed general_FIDiPodPreferenceToken => at_least 3 r [a; b; x00; hd x00 r]
  | KFixed t => match struct_size (layout t) with Some n => at_least n r [a; b; x00] | None => Unreadable end
  | KNone => Strange
  end.

Ltac by_bits :=
  repeat match goal with
  | |- context[match ?x with N0 => _ | Npos _ => _ end] => is_var x; destruct x
  | |- context[match ?x with xH => _ | xO _ => _ | xI _ => _ end] => is_var x; destruct x
  end.

Lemma token_kinds a b r : SpecProtocol.token (a :: b :: r) = token_by_kind a b r.
Proof.
  unfold SpecProtocol.token, token_by_kind, token_kind_of. generalize (b2n a) (b2n b). intros x y.
  by_bits; reflexivity.
Qed.

Lemma kind_fixed x y t : token_kind_of x y = KFixed t ->
  t = general_FIDiPodPreferenceToken \/ t = general_FIDBundleSeedIDPrefToken \/ t = general_FIDScreenInfoToken
  \/ t = general_FIDEAProtocolMetadataToken \/ t = general_FIDMicrophoneCapsToken.
Proof. unfold token_kind_of. by_bits; intros E; try discriminate E; injection E as <-; tauto. Qed.

Lemma fixed_token t n r :
  struct_size (layout t) = Some n ->
  if Nat.ltb (List.length r) n then exists x, fst (binary_read t r) = Err x
  else fst (binary_read t r) = Ok (dec_fields (layout t) (firstn n r)).
Proof.
  intros H. unfold binary_read. rewrite H. destruct (Nat.ltb_spec (List.length r) n) as [L|L].
  - rewrite read_full_short by exact L. eexists. reflexivity.
  - now rewrite read_full_ok by exact L.
Qed.

Lemma token_reads rt d :
  match SpecProtocol.token d with
  | Accepted a => exists v, token_value_unmarshal rt d = Ret (Ok v) /\ ack_marshal rt (ackFIDTokenValue v) = Ret (Ok a)
  | Unreadable => exists x, token_value_unmarshal rt d = Ret (Err x)
  | Strange => if rt then token_value_unmarshal rt d = Panic
               else exists v, token_value_unmarshal rt d = Ret (Ok v) /\ ta_ack (ackFIDTokenValue v) = None
  | Crashing => token_value_unmarshal rt d = Panic
  end.
Proof.
  destruct d as [|a [|b r]]; [eexists; reflexivity..|]. rewrite token_kinds.
  unfold token_value_unmarshal. rewrite read_full_ok by (cbn; lia).
  cbn [firstn skipn nth].
  unfold token_by_kind. destruct (token_kind_of (b2n a) (b2n b)) as [| | | |t|] eqn:K.
  - unfold at_least. destruct r as [|n r]; [eexists; reflexivity|]. cbn [List.length Nat.ltb Nat.leb].
    unfold identify_unmarshal. destruct (read_full (N.to_nat (b2n n)) r) as [[l|x] r1];
      destruct (read_uint_or0 4 r1) as [o r2]; destruct (read_uint_or0 4 r2) as [dv r3];
      (eexists; split; [reflexivity|unfold ack_marshal; cbn; now rewrite !byte_back]).
  - eexists; split; [reflexivity|]. unfold ack_marshal; cbn. now rewrite !byte_back.
  - destruct r as [|i r]; [eexists; reflexivity|].
    unfold accinfo_unmarshal, read_uint_or0. rewrite read_full_ok by (cbn; lia). cbn [firstn skipn]. rewrite be1.
    replace (Accepted [a; b; x00; i]) with (Accepted [a; b; x00; n2b (b2n i)]) by (now rewrite byte_back).
    assert (R : (b2n i < 256)%N) by apply b2n_lt.
    remember (b2n i) as x eqn:X. clear X.
    by_bits; cbn [existsb N.eqb Pos.eqb orb];
      first [ eexists; split; [reflexivity|]; unfold ack_marshal; cbn; now rewrite !byte_back
            | eexists; reflexivity ].
  - destruct r as [|i r]; [reflexivity|]. eexists; split; [reflexivity|]. unfold ack_marshal; cbn. now rewrite !byte_back.
  - destruct (kind_fixed _ _ _ K) as [-> | [-> | [-> | [-> | ->]]]].
    + pose proof (fixed_token general_FIDiPodPreferenceToken 3 r eq_refl) as F. unfold at_least.
      destruct (Nat.ltb_spec (List.length r) 3) as [L|L].
      * destruct F as [x F]. rewrite F. eexists. reflexivity.
      * rewrite F. eexists; split; [reflexivity|]. destruct r as [|p r]; [cbn in L; lia|].
        unfold ack_marshal; cbn. rewrite !byte_back.
        destruct r as [|q [|s r]]; try (cbn in L; lia). reflexivity.
    + pose proof (fixed_token general_FIDBundleSeedIDPrefToken 11 r eq_refl) as F.
      change (struct_size (layout general_FIDBundleSeedIDPrefToken)) with (Some 11). unfold at_least.
      destruct (Nat.ltb_spec (List.length r) 11) as [L|L].
      * destruct F as [x F]. rewrite F. eexists. reflexivity.
      * rewrite F. eexists; split; [reflexivity|]. unfold ack_marshal; cbn. now rewrite !byte_back.
    + pose proof (fixed_token general_FIDScreenInfoToken 14 r eq_refl) as F.
      change (struct_size (layout general_FIDScreenInfoToken)) with (Some 14). unfold at_least.
      destruct (Nat.ltb_spec (List.length r) 14) as [L|L].
      * destruct F as [x F]. rewrite F. eexists. reflexivity.
      * rewrite F. eexists; split; [reflexivity|]. unfold ack_marshal; cbn. now rewrite !byte_back.
    + pose proof (fixed_token general_FIDEAProtocolMetadataToken 2 r eq_refl) as F.
      change (struct_size (layout general_FIDEAProtocolMetadataToken)) with (Some 2). unfold at_least.
      destruct (Nat.ltb_spec (List.length r) 2) as [L|L].
      * destruct F as [x F]. rewrite F. eexists. reflexivity.
      * rewrite F. eexists; split; [reflexivity|]. unfold ack_marshal; cbn. now rewrite !byte_back.
    + pose proof (fixed_token general_FIDMicrophoneCapsToken 4 r eq_refl) as F.
      change (struct_size (layout general_FIDMicrophoneCapsToken)) with (Some 4). unfold at_least.
      destruct (Nat.ltb_spec (List.length r) 4) as [L|L].
      * destruct F as [x F]. rewrite F. eexists. reflexivity.
      * rewrite F. eexists; split; [reflexivity|]. unfold ack_marshal; cbn. now rewrite !byte_back.
  - destruct rt; [reflexivity|]. eexists; split; reflexivity.
Qed.

(** An acknowledgement in the list, with its length; [None]: cannot be sent. *)
Definition sends (rt : bool) (v : token_value) (x : option bytes) : Prop :=
  match x with
  | Some b => exists a, ack_marshal rt (ackFIDTokenValue v) = Ret (Ok a) /\ b = n2b (len a) :: a
  | None => rt = false /\ ta_ack (ackFIDTokenValue v) = None
  end.

Lemma tokens_read rt n d :
  match tokens rt n d with
  | AcceptedAll l => exists vs, tokens_unmarshal_loop rt n d = Ret (Ok vs) /\ Forall2 (sends rt) vs l
  | UnreadableOne => exists x, tokens_unmarshal_loop rt n d = Ret (Err x)
  | CrashingOne => tokens_unmarshal_loop rt n d = Panic
  end.
Proof.
  revert d. induction n as [|n IH]; intros d; [exists []; split; [reflexivity|constructor]|].
  destruct d as [|k r]; [eexists; reflexivity|]. cbn [tokens tokens_unmarshal_loop]. cbv zeta.
  pose proof (token_reads rt (firstn (N.to_nat (b2n k)) r)) as T.
  specialize (IH (skipn (N.to_nat (b2n k)) r)).
  destruct (SpecProtocol.token (firstn (N.to_nat (b2n k)) r)) as [a| | |].
  - destruct T as (v & T & A). rewrite T. cbn [bind].
    destruct (tokens rt n (skipn (N.to_nat (b2n k)) r)) as [l| |]; cbn [and_then].
    + destruct IH as (vs & IH & F). rewrite IH. exists (v :: vs). split; [reflexivity|].
      apply Forall2_cons; [exists a; auto|exact F].
    + destruct IH as (x & IH). rewrite IH. eexists. reflexivity.
    + rewrite IH. reflexivity.
  - destruct T as (x & T). rewrite T. eexists. reflexivity.
  - destruct rt; [now rewrite T|]. destruct T as (v & T & A). rewrite T. cbn [bind].
    destruct (tokens false n (skipn (N.to_nat (b2n k)) r)) as [l| |]; cbn [and_then].
    + destruct IH as (vs & IH & F). rewrite IH. exists (v :: vs). split; [reflexivity|].
      apply Forall2_cons; [split; auto|exact F].
    + destruct IH as (x & IH). rewrite IH. eexists. reflexivity.
    + rewrite IH. reflexivity.
  - now rewrite T.
Qed.

Lemma acks_sent rt vs l :
  Forall2 (sends rt) vs l ->
  if forallb (fun a : option bytes => match a with Some _ => true | None => false end) l
  then acks_marshal_loop rt (map ackFIDTokenValue vs)
       = Ret (Ok (flat_map (fun a : option bytes => match a with Some b => b | None => [] end) l))
  else exists x, acks_marshal_loop rt (map ackFIDTokenValue vs) = Ret (Err x).
Proof.
  induction 1 as [|v x vs l H _ IH]; [reflexivity|]. cbn [forallb map acks_marshal_loop flat_map].
  destruct x as [b|].
  - destruct H as (a & A & ->). rewrite A. cbn [bind andb].
    destruct (forallb _ l).
    + rewrite IH. reflexivity.
    + destruct IH as [x IH]. rewrite IH. eexists. reflexivity.
  - destruct H as [-> H]. cbn [andb]. unfold ack_marshal. rewrite H. eexists. reflexivity.
Qed.

Lemma keeps_mode l s : dg_uimode (tell_tokens DevGeneral_device s l) = dg_uimode s.
Proof. revert s. induction l as [|t l IH]; intros s; [reflexivity|]. cbn [tell_tokens]. now rewrite IH. Qed.

Lemma written_calls A (f : A -> devcall) l evs : written (map (fun t => Called (f t)) l ++ evs) = written evs.
Proof. unfold written. rewrite flat_map_app. induction l as [|a l IH]; [reflexivity|exact IH]. Qed.

Lemma len_map A B (f : A -> B) l : len (map f l) = len l.
Proof. unfold len. now rewrite map_length. Qed.

Lemma Forall2_len A B (R : A -> B -> Prop) l l' : Forall2 R l l' -> len l = len l'.
Proof. intros H. unfold len. f_equal. induction H; [reflexivity|]. cbn. now f_equal. Qed.

Lemma row_20 rt clock : ro rt clock 20.
Proof.
  cbv beta iota delta [ro nth_error request_types requests]. ready. cbv beta iota zeta delta [payload_unmarshal].
  unfold identification, tokens_unmarshal. destruct c as [|n r]; [apply handle_nothing, said_nothing, U|].
  pose proof (tokens_read rt (N.to_nat (b2n n)) r) as T.
  destruct (tokens rt (N.to_nat (b2n n)) r) as [l| |].
  - destruct T as (vs & T & F). rewrite T. cbn [bind].
    pose proof (acks_sent _ _ _ F) as A. pose proof (Forall2_len _ _ _ _ _ F) as E.
    conc general_SetFIDTokenValues.
    change (handlePacket std_registry clock DevGeneral_device ?c) with
      (run _ <- ret tt; HandleGeneral std_registry DevGeneral_device c).
    unfold HandleGeneral. cbn [cmd_payload]. hrun.
    destruct (forallb _ l).
    + split; [cbn; rewrite keeps_mode; exact U|].
      do 2 eexists. split; [reflexivity|]. split.
      { unfold mem. cbn [h_dev h_trx h_ticks log]. rewrite keeps_mode. reflexivity. }
      cbn [app]. rewrite written_calls. cbn [written flat_map app with_numbers snd cmd_trx].
      apply Forall2_cons; [|apply Forall2_nil]. conc general_RetFIDTokenValueACKs.
      eapply convey_reply; [left|reflexivity|reflexivity|reflexivity].
      unfold ackFIDTokenValues. cbn [payload_marshaler]. unfold acks_marshal. rewrite A. cbn [bind].
      rewrite len_map, E. reflexivity.
    + destruct A as [x A]. split; [cbn; rewrite keeps_mode; exact U|].
      do 2 eexists. split; [reflexivity|]. split.
      { unfold mem. cbn [h_dev h_trx h_ticks log]. rewrite keeps_mode. reflexivity. }
      cbn [app]. rewrite written_calls. cbn [written flat_map app with_numbers snd cmd_trx].
      apply Forall2_cons; [|apply Forall2_nil]. conc general_RetFIDTokenValueACKs.
      intros e0. eexists. rewrite MarshalCmd_eq.
      unfold ackFIDTokenValues. cbn [payload_marshaler]. unfold acks_marshal. rewrite A. reflexivity.
  - destruct T as (x & T). rewrite T. apply handle_nothing, said_nothing, U.
  - rewrite T. reflexivity.
Qed.
