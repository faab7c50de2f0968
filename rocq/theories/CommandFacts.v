(** Lemmas about Command.v. *)
From Verif Require Import Base BaseFacts GoTypes GoTypesFacts Types Payload PayloadFacts Lingo SpecPayload
  Command SpecCommand LingoFacts ReadFacts.
From Coq Require Import ZifyBool ZifyNat ZifyN Permutation.
Ltac Zify.zify_post_hook ::= Z.div_mod_to_equations.
#[local] Opaque std_registry.

(** ** Mode *)

Lemma handleCmdID_controls e id :
  handleCmdID e id = match controls id with Some m => m | None => e end.
Proof.
  unfold handleCmdID, controls.
  change (NewLingoCmdID LingoGeneralID 0) with 0%N.
  change (NewLingoCmdID LingoGeneralID 19) with 19%N.
  change (NewLingoCmdID LingoGeneralID 56) with 56%N.
  destruct (id =? 0)%N, (id =? 19)%N, (id =? 56)%N; reflexivity.
Qed.

Lemma handleCmdID_mode e id : handleCmdID e id = mode_after e [id].
Proof. rewrite handleCmdID_controls. reflexivity. Qed.

Lemma ret_inj {A} (x y : A) : Ret x = Ret y -> x = y.
Proof. now intros [= ->]. Qed.
Lemma ret_ok {A B} (a a' : A) (b b' : B) : Ret (a, Ok b) = Ret (a', Ok b') -> a = a' /\ b = b'.
Proof. now intros [= -> ->]. Qed.

Lemma MarshalCmd_mode rt e c r : MarshalCmd rt e c = Ret r -> fst r = mode_after e [cmd_id c].
Proof.
  unfold MarshalCmd. rewrite handleCmdID_mode. destruct (cmd_payload c) as [p|]; [|now intros [= <-]].
  destruct (payload_marshaler rt p) as [[rr|]|]; cbn [bind]; intros H; try discriminate H;
    apply ret_inj in H; now subst r.
Qed.

Lemma UnmarshalCmd_mode rt reg e pkt r :
  UnmarshalCmd rt reg e pkt = Ret r ->
  fst (fst r) = match packet_id pkt with Some id => mode_after e [id] | None => e end.
Proof.
  unfold UnmarshalCmd. pose proof (unmarshal_id_spec pkt) as U.
  destruct (packet_id pkt) as [id|].
  - destruct U as [-> _]. rewrite handleCmdID_mode.
    destruct (Lookup reg id _ _) as [lr|]; [|now intros [= <-]].
    set (x := if lr_trx lr then _ else _). destruct x as [[tr te] body2].
    destruct te; [now intros [= <-]|].
    destruct (payload_unmarshal rt (lr_type lr) body2) as [[[|] [p|err]]|]; cbn [bind];
      try discriminate; now intros [= <-].
  - destruct U as (err & rest & -> & _). now intros [= <-].
Qed.

Lemma mode_after_app e a b : mode_after e (a ++ b) = mode_after (mode_after e a) b.
Proof. revert e; induction a as [|x a IH]; intros e; [reflexivity|]. apply IH. Qed.

Lemma serde_run_mode rt reg ops e e' :
  serde_run rt reg e ops = Ret e' -> e' = mode_after e (ids_seen ops).
Proof.
  revert e; induction ops as [|op ops IH]; intros e; cbn [serde_run].
  - now intros [= <-].
  - destruct (serde_step rt reg e op) as [e1|] eqn:S; cbn [bind]; [|discriminate].
    intros H. apply IH in H. subst e'.
    destruct op as [c|pkt]; unfold serde_step in S.
    + destruct (MarshalCmd rt e c) as [r|] eqn:M; [|discriminate]. cbn [bind] in S. injection S as <-.
      apply MarshalCmd_mode in M. rewrite M. reflexivity.
    + destruct (UnmarshalCmd rt reg e pkt) as [r|] eqn:M; [|discriminate]. cbn [bind] in S. injection S as <-.
      apply UnmarshalCmd_mode in M. rewrite M. cbn [ids_seen]. now destruct (packet_id pkt).
Qed.

(** ** Marshal *)

Lemma trx_bytes_enc t : be_enc 2 t = trx_bytes t.
Proof.
  unfold trx_bytes. rewrite be_enc_2. do 2 f_equal. apply n2b_eq. lia.
Qed.

Definition wire_trx (e : bool) (tr : option N) : bytes :=
  match tr with Some t => if e then trx_bytes t else [] | None => [] end.

Lemma MarshalCmd_eq rt e id tr p :
  MarshalCmd rt e (mkCmd id tr (Some p))
  = match payload_marshaler rt p with
    | Some m => do r <- m;
                Ret (mode_after e [id],
                     match r with
                     | Ok b => Ok (marshalLingoCmdID id ++ wire_trx (mode_after e [id]) tr ++ b)
                     | Err x => Err (wrap "ipod.Command marshal: BinaryMarshaler: " x)
                     end)
    | None => Ret (mode_after e [id],
                   match payload_binary_write p with
                   | Ok b => Ok (marshalLingoCmdID id ++ wire_trx (mode_after e [id]) tr ++ b)
                   | Err x => Err (wrap "ipod.Command marshal: binary.Write: " x)
                   end)
    end.
Proof.
  unfold MarshalCmd. cbn [cmd_id cmd_trx cmd_payload]. rewrite handleCmdID_mode.
  assert (E : match tr with Some t => if mode_after e [id] then be_enc 2 t else [] | None => [] end
              = wire_trx (mode_after e [id]) tr).
  { unfold wire_trx. destruct tr as [t|]; [|reflexivity]. now rewrite trx_bytes_enc. }
  now rewrite E.
Qed.

Lemma MarshalCmd_ok rt e c e' b :
  MarshalCmd rt e c = Ret (e', Ok b) ->
  exists p pb, cmd_payload c = Some p /\ payload_bytes rt p pb /\ e' = mode_after e [cmd_id c]
    /\ b = marshalLingoCmdID (cmd_id c) ++ wire_trx e' (cmd_trx c) ++ pb.
Proof.
  destruct c as [id tr [p|]]; [|discriminate].
  rewrite MarshalCmd_eq. cbn [cmd_id cmd_trx cmd_payload]. unfold payload_bytes.
  destruct (payload_marshaler rt p) as [[[pb|x]|]|] eqn:M; cbn [bind]; try discriminate.
  - intros H. apply ret_ok in H as [<- <-]. exists p, pb. auto.
  - destruct (payload_binary_write p) as [pb|x] eqn:W; [|discriminate].
    intros H. apply ret_ok in H as [<- <-]. exists p, pb. auto.
Qed.

Lemma MarshalCmd_complete rt e id tr p pb :
  payload_bytes rt p pb ->
  MarshalCmd rt e (mkCmd id tr (Some p))
  = Ret (mode_after e [id], Ok (marshalLingoCmdID id ++ wire_trx (mode_after e [id]) tr ++ pb)).
Proof. intros [H | [H1 H2]]; rewrite MarshalCmd_eq, ?H, ?H1, ?H2; reflexivity. Qed.

(** ** Lookup *)

Lemma lookup_by_size_spec ts n :
  match lookup_by_size ts n with
  | Some (mkLookup t b) =>
      exists pre post m, ts = pre ++ t :: post /\ fixed_size t m /\ n = m + (if b then 2 else 0)
        /\ (forall u k, In u pre -> fixed_size u k -> n <> k /\ n <> k + 2)
  | None => forall u k, In u ts -> fixed_size u k -> n <> k /\ n <> k + 2
  end.
Proof.
  induction ts as [|t ts IH]; cbn [lookup_by_size]; [now intros|].
  destruct (struct_size (layout t)) as [m|] eqn:S.
  - destruct (Nat.eqb_spec m n) as [E|E].
    + exists [], ts, m. split; [reflexivity|]. split; [exact S|]. split; [lia|]. now intros.
    + destruct (Nat.eqb_spec (m + 2) n) as [E2|E2].
      * exists [], ts, m. split; [reflexivity|]. split; [exact S|]. split; [lia|]. now intros.
      * destruct (lookup_by_size ts n) as [[u b]|].
        { destruct IH as (pre & post & k & -> & Hk & Hn & Hp). exists (t :: pre), post, k.
          split; [reflexivity|]. split; [exact Hk|]. split; [exact Hn|].
          intros v j [<-|Hin] Hj; [|exact (Hp v j Hin Hj)]. unfold fixed_size in Hj. rewrite S in Hj.
          injection Hj as <-. lia. }
        { intros v j [<-|Hin] Hj; [|exact (IH v j Hin Hj)]. unfold fixed_size in Hj. rewrite S in Hj.
          injection Hj as <-. lia. }
  - destruct (lookup_by_size ts n) as [[u b]|].
    + destruct IH as (pre & post & k & -> & Hk & Hn & Hp). exists (t :: pre), post, k.
      split; [reflexivity|]. split; [exact Hk|]. split; [exact Hn|].
      intros v j [<-|Hin] Hj; [|exact (Hp v j Hin Hj)]. unfold fixed_size in Hj. rewrite S in Hj. discriminate.
    + intros v j [<-|Hin] Hj; [|exact (IH v j Hin Hj)]. unfold fixed_size in Hj. rewrite S in Hj. discriminate.
Qed.

Lemma lookup_by_size_variable t n : struct_size (layout t) = None -> lookup_by_size [t] n = None.
Proof. cbn [lookup_by_size]. now intros ->. Qed.

(** ** Unmarshal *)

(** What UnmarshalCmd does once the type and the presence of a transaction are settled. *)
Lemma UnmarshalCmd_found rt reg e pkt id t (b : bool) :
  packet_id pkt = Some id ->
  Lookup reg id (List.length (packet_body pkt)) (mode_after e [id]) = Some (mkLookup t b) ->
  UnmarshalCmd rt reg e pkt
  = let e' := mode_after e [id] in
    let body := packet_body pkt in
    if b && Nat.ltb (List.length body) 2
    then Ret (e', mkCmd id None None, Some (match body with [] => EOF | _ => UnexpectedEOF end))
    else
      let tr := if b then Some (be_dec (firstn 2 body)) else None in
      do r <- payload_unmarshal rt t (if b then skipn 2 body else body);
      match r with
      | (_, Ok p) => Ret (e', mkCmd id tr (Some p), None)
      | (true, Err x) => Ret (e', mkCmd id tr None, Some (wrap "ipod.Command unmarshal: BinaryUnmarshaler: " x))
      | (false, Err x) => Ret (e', mkCmd id tr None, Some (wrap "ipod.Command unmarshal: binary.Read: " x))
      end.
Proof.
  intros Hid HL. unfold UnmarshalCmd. pose proof (unmarshal_id_spec pkt) as U. rewrite Hid in U.
  destruct U as [-> _]. rewrite handleCmdID_mode, HL. cbn [lr_trx lr_type]. cbv zeta.
  destruct b; [|reflexivity]. cbn [andb].
  destruct (Nat.ltb_spec (List.length (packet_body pkt)) 2) as [H|H].
  - rewrite read_full_short by auto. reflexivity.
  - rewrite read_full_ok by auto. reflexivity.
Qed.

Lemma UnmarshalCmd_unknown rt reg e pkt id :
  packet_id pkt = Some id ->
  Lookup reg id (List.length (packet_body pkt)) (mode_after e [id]) = None ->
  UnmarshalCmd rt reg e pkt
  = Ret (mode_after e [id], mkCmd id None (Some (PUnknown (packet_body pkt))), Some (errUnknownCmd id)).
Proof.
  intros Hid HL. unfold UnmarshalCmd. pose proof (unmarshal_id_spec pkt) as U. rewrite Hid in U.
  destruct U as [-> _]. rewrite handleCmdID_mode, HL. reflexivity.
Qed.

Lemma UnmarshalCmd_short rt reg e pkt :
  packet_id pkt = None ->
  exists x, UnmarshalCmd rt reg e pkt = Ret (e, mkCmd 0 None None, Some x)
            /\ (x = wrap "ipod.Command unmarshal: " EOF \/ x = wrap "ipod.Command unmarshal: " UnexpectedEOF).
Proof.
  intros Hid. unfold UnmarshalCmd. pose proof (unmarshal_id_spec pkt) as U. rewrite Hid in U.
  destruct U as (err & r & -> & [-> | ->]); eexists; split; try reflexivity; auto.
Qed.

Lemma firstn_trx t rest : u16 t -> be_dec (firstn 2 (trx_bytes t ++ rest)) = t.
Proof.
  intros H. cbn [firstn trx_bytes app]. rewrite be_dec_2, !b2n_n2b. unfold u16 in H. lia.
Qed.

(** ** Round trips *)

Lemma fixed_roundtrip_gen rt e e2 id tr t n vs :
  In (id, t) std_registry -> fixed_size t n -> typed t vs ->
  (forall x, tr = Some x -> u16 x) ->
  (t <> general_ACKDataDropped \/ (mode_after e [id] = true /\ tr <> None)) ->
  exists b, MarshalCmd rt e (mkCmd id tr (Some (Pst t vs))) = Ret (mode_after e [id], Ok b)
    /\ UnmarshalCmd rt std_registry e2 b
       = Ret (mode_after e2 [id],
              mkCmd id (if mode_after e [id] then tr else None) (Some (Pst t vs)), None).
Proof.
  intros Hin Hn Ht Htr Hor.
  set (pb := enc_fields (layout t) vs).
  assert (Hpb : payload_bytes rt (Pst t vs) pb).
  { right. split; [eapply fixed_no_marshaler; eauto|]. apply (binary_write_fixed _ _ _ Hn). }
  assert (Lpb : List.length pb = n) by (eapply enc_fields_length; eauto).
  set (e' := mode_after e [id]) in *.
  set (wt := wire_trx e' tr).
  exists (marshalLingoCmdID id ++ wt ++ pb).
  split; [apply MarshalCmd_complete; auto|].
  pose proof (std_wire_id _ _ Hin) as Hw.
  rewrite marshal_id_prefix by apply Hw.
  destruct (packet_id_prefix id (wt ++ pb) Hw) as [P1 P2].
  assert (Hcase : (exists x, tr = Some x /\ e' = true /\ wt = trx_bytes x)
                  \/ ((if e' then tr else None) = None /\ wt = [] /\ t <> general_ACKDataDropped)).
  { unfold wt, wire_trx. destruct tr as [x|], e'; [left; exists x; repeat split| | |]; right; (split; [reflexivity|split; [reflexivity|]]);
      (destruct Hor as [Hor|[Hor1 Hor2]]; [exact Hor|]); try discriminate Hor1; now destruct Hor2. }
  destruct Hcase as [(x & -> & -> & Hwt) | (Htr0 & Hwt & Hne)].
  - rewrite (UnmarshalCmd_found rt std_registry e2 _ id t true P1).
    + rewrite P2, Hwt. cbv zeta.
      assert (L : Nat.ltb (List.length (trx_bytes x ++ pb)) 2 = false).
      { apply Nat.ltb_ge. rewrite app_length. simpl. lia. }
      rewrite L. cbn [andb]. rewrite firstn_trx by auto.
      change (skipn 2 (trx_bytes x ++ pb)) with pb.
      rewrite (fixed_unmarshal rt t n _ Hn). unfold pb.
      rewrite <- (app_nil_r (enc_fields _ _)), (binary_roundtrip _ _ _ _ Hn Ht). reflexivity.
    + rewrite P2, Hwt. unfold Lookup.
      replace (List.length (trx_bytes x ++ pb)) with (n + 2) by (rewrite app_length; simpl; lia).
      now rewrite (std_lookup_trx _ _ _ Hin Hn).
  - rewrite Htr0.
    rewrite (UnmarshalCmd_found rt std_registry e2 _ id t false P1).
    + rewrite P2, Hwt. cbn [andb app]. cbv zeta.
      rewrite (fixed_unmarshal rt t n _ Hn). unfold pb.
      rewrite <- (app_nil_r (enc_fields _ _)), (binary_roundtrip _ _ _ _ Hn Ht). reflexivity.
    + rewrite P2, Hwt. unfold Lookup. cbn [app]. rewrite Lpb.
      now rewrite (std_lookup_plain _ _ _ Hin Hn Hne).
Qed.

Lemma variable_lookup id t n m :
  In (id, t) std_registry -> struct_size (layout t) = None ->
  Lookup std_registry id n m = Some (mkLookup t m).
Proof.
  intros Hin Hs. unfold Lookup. rewrite (std_single _ _ Hin Hs).
  now rewrite lookup_by_size_variable.
Qed.

Lemma variable_roundtrip rt e id tr p t :
  sendable rt p -> payload_type p = Some t -> In (id, t) std_registry ->
  (forall x, tr = Some x -> u16 x) ->
  (tr <> None <-> mode_after e [id] = true) ->
  exists b, MarshalCmd rt e (mkCmd id tr (Some p)) = Ret (mode_after e [id], Ok b)
    /\ UnmarshalCmd rt std_registry e b = Ret (mode_after e [id], mkCmd id tr (Some p), None).
Proof.
  intros Hs Ht Hin Hu Htr.
  destruct (sendable_roundtrip rt p Hs) as (t' & pb & Ht' & Hvar & Em & Eu).
  rewrite Ht in Ht'. injection Ht' as <-.
  set (e' := mode_after e [id]) in *.
  set (wt := wire_trx e' tr).
  exists (marshalLingoCmdID id ++ wt ++ pb).
  split; [apply MarshalCmd_complete; now left|].
  pose proof (std_wire_id _ _ Hin) as Hw.
  rewrite marshal_id_prefix by apply Hw.
  destruct (packet_id_prefix id (wt ++ pb) Hw) as [P1 P2].
  rewrite (UnmarshalCmd_found rt std_registry e _ id t e' P1).
  - rewrite P2. fold e'. cbv zeta. destruct e' eqn:E.
    + destruct tr as [x|]; [|exfalso; now apply Htr].
      change wt with (trx_bytes x).
      assert (L : Nat.ltb (List.length (trx_bytes x ++ pb)) 2 = false).
      { apply Nat.ltb_ge. rewrite app_length. simpl. lia. }
      rewrite L. cbn [andb]. rewrite firstn_trx by auto.
      change (skipn 2 (trx_bytes x ++ pb)) with pb. now rewrite Eu.
    + destruct tr as [x|]; [exfalso; assert (Hf : false = true) by (apply Htr; discriminate); discriminate|].
      change wt with (@nil byte). cbn [app andb]. now rewrite Eu.
  - now apply variable_lookup.
Qed.

(** ** Panics *)

Lemma token_panic rt x : token_value_unmarshal rt x = Panic <-> crashing_token rt x.
Proof.
  unfold token_value_unmarshal, crashing_token.
  destruct x as [|a [|b r]].
  - cbn [read_full]. split; [discriminate|]. intros [H|(_ & a & b & r & H & _)]; discriminate.
  - cbn [read_full]. cbn. split; [discriminate|]. intros [H|(_ & a' & b' & r & H & _)]; discriminate.
  - rewrite read_full_ok by (simpl; lia). cbn [firstn skipn nth].
    destruct (token_kind_of (b2n a) (b2n b)) eqn:K.
    + split.
      * unfold identify_unmarshal. destruct r as [|n r0]; [discriminate|].
        destruct (read_full _ r0) as [[q|e2] r1];
          destruct (read_uint_or0 4 r1) as [o r2]; destruct (read_uint_or0 4 r2) as [d r3]; discriminate.
      * intros [[= -> -> ->]|(_ & a' & b' & r' & [= <- <- <-] & Hk)]; [discriminate|].
        apply token_kind_none in Hk. congruence.
    + split; [discriminate|].
      intros [[= -> -> ->]|(_ & a' & b' & r' & [= <- <- <-] & Hk)]; [discriminate|].
      apply token_kind_none in Hk. congruence.
    + split; [destruct (accinfo_unmarshal r); discriminate|].
      intros [[= -> -> ->]|(_ & a' & b' & r' & [= <- <- <-] & Hk)]; [discriminate|].
      apply token_kind_none in Hk. congruence.
    + apply token_kind_ea in K as [Ka Kb].
      assert (a = x00) by (apply b2n_inj; rewrite Ka; reflexivity).
      assert (b = x04) by (apply b2n_inj; rewrite Kb; reflexivity). subst a b.
      destruct r as [|c r]; cbn [eaprotocol_unmarshal bind].
      * split; auto.
      * split; [discriminate|]. intros [H|(_ & a' & b' & r' & [= <- <- <-] & Hk)]; [discriminate|].
        exfalso. apply Hk. right. simpl. auto 10.
    + split; [destruct (fst (binary_read t r)); discriminate|].
      intros [[= -> -> ->]|(_ & a' & b' & r' & [= <- <- <-] & Hk)]; [discriminate|].
      apply token_kind_none in Hk. congruence.
    + assert (Hk := proj1 (token_kind_none _ _) K). destruct rt.
      * split; auto. intros _. right. split; auto. eauto 6.
      * split; [discriminate|]. intros [[= -> -> ->]|(H & _)]; [|discriminate].
        exfalso. apply Hk. right. simpl. auto 10.
Qed.

Lemma tokens_loop_panic rt n data :
  tokens_unmarshal_loop rt n data = Panic <-> exists x, reaches rt n data x /\ crashing_token rt x.
Proof.
  revert data; induction n as [|n IH]; intros data; cbn [tokens_unmarshal_loop].
  - split; [discriminate|]. intros (x & H & _). inversion H.
  - destruct data as [|k r].
    + split; [discriminate|]. intros (x & H & _). inversion H.
    + set (y := firstn (N.to_nat (b2n k)) r).
      destruct (token_value_unmarshal rt y) as [[v|err]|] eqn:T; cbn [bind].
      * transitivity (tokens_unmarshal_loop rt n (skipn (N.to_nat (b2n k)) r) = Panic).
        { destruct (tokens_unmarshal_loop rt n _) as [[vs|e]|]; cbn [bind]; split; congruence. }
        rewrite IH. split.
        { intros (x & H & Hc). exists x. split; auto. eapply reach_next; [|exact H]. apply token_reads_iff. exact T. }
        { intros (x & H & Hc). inversion H as [? ? ? E1 E2|? ? ? ? v' Hv Hr]; subst.
          - exfalso. apply token_panic in Hc. fold y in Hc. congruence.
          - eauto. }
      * split; [discriminate|]. intros (x & H & Hc).
        inversion H as [? ? ? E1 E2|? ? ? ? v' Hv Hr]; subst.
        { apply token_panic in Hc. fold y in Hc. congruence. }
        { fold y in Hv. apply token_reads_iff in Hv. congruence. }
      * split; auto. intros _. exists y. split; [apply reach_here|]. now apply token_panic.
Qed.

Lemma payload_unmarshal_panic rt t body :
  payload_unmarshal rt t body = Panic <-> crashing_body rt t body.
Proof.
  unfold crashing_body.
  assert (Hno : forall x, t <> general_RequestApplicationLaunch -> t <> general_SetFIDTokenValues ->
            payload_unmarshal rt t body = Ret x ->
            (payload_unmarshal rt t body = Panic <->
             (t = general_RequestApplicationLaunch /\ List.length body < 3)
             \/ (t = general_SetFIDTokenValues
                 /\ exists n r x0, body = n :: r /\ reaches rt (N.to_nat (b2n n)) r x0 /\ crashing_token rt x0))).
  { intros x H1 H2 E. rewrite E. split; [discriminate|]. intros [[H _]|[H _]]; congruence. }
  destruct t; try (eapply Hno; [discriminate | discriminate | reflexivity]).
  - (* ReturniPodModelNum *)
    destruct (modelnum_unmarshal body) as [i m] eqn:E.
    eapply Hno; [discriminate | discriminate |]. cbn [payload_unmarshal]. rewrite E. reflexivity.
  - (* SetFIDTokenValues *)
    cbn [payload_unmarshal]. split.
    + intros H. right. split; auto.
      destruct (tokens_unmarshal rt body) as [r|] eqn:E; [discriminate|].
      unfold tokens_unmarshal in E. destruct body as [|n r]; [discriminate|].
      apply tokens_loop_panic in E as (x & Hr & Hc). eauto 6.
    + intros [[H _]|(_ & n & r & x & -> & Hr & Hc)]; [discriminate|].
      assert (E : tokens_unmarshal rt (n :: r) = Panic).
      { apply tokens_loop_panic. eauto. }
      now rewrite E.
  - (* RequestApplicationLaunch *)
    cbn [payload_unmarshal]. destruct body as [|a [|b [|c r]]]; cbn [applaunch_unmarshal bind List.length].
    1-3: split; auto; intros _; left; split; auto; lia.
    split; [discriminate|]. intros [[_ H]|[H _]]; [lia|discriminate].
Qed.
