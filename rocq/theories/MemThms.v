(** Which slices stay intact, and for how long. *)
From Verif Require Import Base BaseFacts GoTypes Types Payload Lingo Command SpecCommand CommandFacts CommandThms
  Handlers Packet Hid Server Mem MemFacts SpecMem.

(** ** Copies *)

Definition fresh (h h' : heap) (s : ref) : Prop :=
  List.length h <= rf_arr s < List.length h' /\ in_array h' s.

Definition extends (h h' : heap) : Prop := exists x, h' = h ++ x.

Lemma extends_refl h : extends h h.
Proof. exists []. rewrite app_nil_r. reflexivity. Qed.

Lemma extends_trans h1 h2 h3 : extends h1 h2 -> extends h2 h3 -> extends h1 h3.
Proof. intros [x ->] [y ->]. exists (x ++ y). rewrite app_assoc. reflexivity. Qed.

Lemma extends_array h h' a : extends h h' -> a < List.length h -> array h' a = array h a.
Proof. intros [x ->] H. apply array_app, H. Qed.

Lemma extends_length h h' : extends h h' -> List.length h <= List.length h'.
Proof. intros [x ->]. rewrite app_length. lia. Qed.

Lemma fresh_extends h h1 h2 s : extends h1 h2 -> fresh h h1 s -> fresh h h2 s.
Proof.
  intros E [F I]. pose proof (extends_length _ _ E). split; [lia|]. unfold in_array in *.
  rewrite (extends_array _ _ _ E) by lia. exact I.
Qed.

Lemma load_extends h h' s : extends h h' -> rf_arr s < List.length h -> load h' s = load h s.
Proof. intros E H. apply load_same_array, extends_array; assumption. Qed.

Lemma alloc_all_spec ls : forall h h' ss, alloc_all h ls = (h', ss) ->
  extends h h' /\ map (load h') ss = ls /\ Forall (fresh h h') ss.
Proof.
  induction ls as [|l ls IH]; intros h h' ss E; cbn [alloc_all alloc] in E.
  - injection E as <- <-. split; [apply extends_refl|]. auto.
  - destruct (alloc_all (h ++ [l]) ls) as [h2 ss2] eqn:E2. injection E as <- <-.
    destruct (IH _ _ _ E2) as (X & M & F).
    assert (X0 : extends h (h ++ [l])) by (exists [l]; reflexivity).
    assert (L : List.length (h ++ [l]) = S (List.length h)) by (rewrite app_length; cbn; lia).
    pose proof (extends_length _ _ X) as XL.
    assert (A : array h2 (List.length h) = l).
    { rewrite (extends_array _ _ _ X) by lia. apply array_new. }
    split; [exact (extends_trans _ _ _ X0 X)|]. split.
    + cbn [map]. rewrite M. f_equal. unfold load. cbn [rf_arr rf_off rf_len]. rewrite A. cbn [skipn]. apply firstn_all.
    + apply Forall_cons.
      * split; cbn [rf_arr]; [lia|]. unfold in_array. cbn [rf_arr rf_off rf_len]. rewrite A. lia.
      * eapply Forall_impl; [|exact F]. intros s [S1 S2]. split; [lia|exact S2].
Qed.

Lemma own_spec {A} h ls (build : list bytes -> A) h' k : own h ls build = (h', k) ->
  extends h h' /\ deref h' k = build ls /\ Forall (fresh h h') (kp_refs k).
Proof.
  unfold own. destruct (alloc_all h ls) as [h1 ss] eqn:E. intros H. injection H as <- <-.
  destruct (alloc_all_spec ls h h1 ss E) as (X & M & F). split; [exact X|]. split; [|exact F].
  unfold deref. cbn [kp_build kp_refs]. rewrite M. reflexivity.
Qed.

Lemma refill_id vs : refill vs (field_slices vs) = vs.
Proof. induction vs as [|v vs IH]; [reflexivity|]. destruct v; cbn [refill field_slices hd tl]; rewrite IH; reflexivity. Qed.

Lemma refill_acks_id l : refill_acks l (ack_slices l) = l.
Proof. induction l as [|[ty sub [b|]] l IH]; [reflexivity|..]; cbn [refill_acks ack_slices hd tl]; rewrite IH; reflexivity. Qed.

(** ** Tokens *)

(** A slice is new, or part of [data]. *)
Definition within (data s : ref) : Prop :=
  rf_arr s = rf_arr data /\ rf_off data <= rf_off s /\ rf_off s + rf_len s <= rf_off data + rf_len data.

Definition token_refs (h h' : heap) (data : ref) (v : token_value) (k : kept token_value) : Prop :=
  if is_protocol v
  then exists i s, kp_refs k = [s] /\ within data s /\ (forall ls, kp_build k ls = mkTV (tv_type v) (tv_sub v) (TokEAProtocol i (hd [] ls)))
  else Forall (fresh h h') (kp_refs k).

Lemma protocol_token rt data v : token_value_unmarshal rt data = Ret (Ok v) ->
  forall i s, tv_token v = TokEAProtocol i s -> s = skipn 3 data /\ 3 <= List.length data.
Proof.
  unfold token_value_unmarshal. destruct (read_full 2 data) as [[idb|e] r] eqn:R; [|intros H; discriminate H].
  assert (D : data = idb ++ r /\ List.length idb = 2).
  { destruct data as [|x0 [|x1 data]]; cbn in R; [discriminate R|discriminate R|].
    injection R as <- <-. split; reflexivity. }
  destruct D as [-> L].
  intros H i s T.
  destruct (token_kind_of _ _) eqn:K.
  - unfold identify_unmarshal in H. destruct r as [|n r0]; [discriminate H|].
    destruct (match read_full _ _ with (Ok b, r) => _ | (Err _, r) => _ end) as [lingoes r1].
    destruct (read_uint_or0 4 r1) as [o r2]. destruct (read_uint_or0 4 r2) as [dv r3].
    injection H as <-. discriminate T.
  - injection H as <-. discriminate T.
  - unfold accinfo_unmarshal in H. destruct (read_uint_or0 1 r) as [ty r1].
    destruct ty as [|p]; [discriminate H|].
    repeat (destruct p as [p|p|]; try discriminate H); injection H as <-; discriminate T.
  - destruct r as [|b r]; cbn [eaprotocol_unmarshal bind] in H; [discriminate H|].
    injection H as <-. cbn [tv_token] in T. injection T as _ <-.
    split; [|rewrite app_length; cbn; lia].
    replace 3 with (List.length idb + 1) by lia. rewrite <- skipn_skipn'.
    rewrite skipn_app, skipn_all, Nat.sub_diag. reflexivity.
  - destruct (fst (binary_read t r)); [injection H as <-; discriminate T|discriminate H].
  - destruct rt; [discriminate H|]. injection H as <-. discriminate T.
Qed.

Lemma tv_eta v : mkTV (tv_type v) (tv_sub v) (tv_token v) = v.
Proof. destruct v; reflexivity. Qed.

Lemma token_value_unmarshal_mem_ok rt h data : in_array h data ->
  match token_value_unmarshal rt (load h data) with
  | Panic => token_value_unmarshal_mem rt h data = Panic
  | Ret (Err e) => token_value_unmarshal_mem rt h data = Ret (Err e)
  | Ret (Ok v) => exists h' k, token_value_unmarshal_mem rt h data = Ret (Ok (h', k))
                    /\ extends h h' /\ deref h' k = v /\ token_refs h h' data v k
  end.
Proof.
  intros I. unfold token_value_unmarshal_mem.
  destruct (token_value_unmarshal rt (load h data)) as [[v|e]|] eqn:U; cbn [bind]; [|reflexivity|reflexivity].
  assert (OWN : forall l build, build [l] = v -> is_protocol v = false ->
            exists h' k, Ret (Ok (own h [l] build)) = @Ret (res (heap * kept token_value)) (Ok (h', k))
              /\ extends h h' /\ deref h' k = v /\ token_refs h h' data v k).
  { intros l build B P. destruct (own h [l] build) as [h' k] eqn:O. exists h', k. split; [reflexivity|].
    destruct (own_spec h [l] build h' k O) as (X & D & F). split; [exact X|]. split; [congruence|].
    unfold token_refs. rewrite P. exact F. }
  assert (PL : is_protocol v = false ->
            exists h' k, Ret (Ok (h, plain v)) = @Ret (res (heap * kept token_value)) (Ok (h', k))
              /\ extends h h' /\ deref h' k = v /\ token_refs h h' data v k).
  { intros P. exists h, (plain v). split; [reflexivity|]. split; [apply extends_refl|]. split; [reflexivity|].
    unfold token_refs. rewrite P. apply Forall_nil. }
  pose proof (tv_eta v) as ETA.
  destruct (tv_token v) as [|l o d|ty [b|]|i s|t vs|l] eqn:T.
  - apply PL. unfold is_protocol. rewrite T. reflexivity.
  - apply OWN; [cbn [hd]; exact ETA|unfold is_protocol; rewrite T; reflexivity].
  - apply OWN; [cbn [hd]; exact ETA|unfold is_protocol; rewrite T; reflexivity].
  - apply PL. unfold is_protocol. rewrite T. reflexivity.
  - destruct (protocol_token rt (load h data) v U i s T) as [E L]. rewrite (load_length h data I) in L.
    eexists h, _. split; [reflexivity|]. split; [apply extends_refl|]. split.
    + unfold deref. cbn [kp_build kp_refs map hd]. rewrite <- ETA. f_equal. f_equal. rewrite E.
      unfold load. cbn [rf_arr rf_off rf_len]. rewrite skipn_firstn_comm, skipn_skipn'. reflexivity.
    + unfold token_refs, is_protocol. rewrite T. exists i, (mkRef (rf_arr data) (rf_off data + 3) (rf_len data - 3)).
      split; [reflexivity|]. split; [unfold within; cbn; lia|]. intros ls. reflexivity.
  - apply PL. unfold is_protocol. rewrite T. reflexivity.
  - apply OWN; [cbn [hd]; exact ETA|unfold is_protocol; rewrite T; reflexivity].
Qed.

Lemma within_trans a b c : within a b -> within b c -> within a c.
Proof. unfold within. intros (A1 & A2 & A3) (B1 & B2 & B3). repeat split; [congruence|lia|lia]. Qed.

Lemma deref_extends {A} h h' (k : kept A) : extends h h' -> Forall (fun s => rf_arr s < List.length h) (kp_refs k) ->
  deref h' k = deref h k.
Proof.
  intros X F. unfold deref. f_equal. apply map_ext_in. intros s Hs. rewrite Forall_forall in F.
  apply load_extends; [exact X|exact (F s Hs)].
Qed.

Lemma token_refs_range h h' data v k : rf_arr data < List.length h -> extends h h' -> token_refs h h' data v k ->
  Forall (fun s => rf_arr s < List.length h') (kp_refs k).
Proof.
  intros D X R. pose proof (extends_length _ _ X). unfold token_refs in R. destruct (is_protocol v).
  - destruct R as (i & s & -> & (W & _) & _). repeat constructor. lia.
  - eapply Forall_impl; [|exact R]. intros s [S1 _]. lia.
Qed.

Lemma token_refs_mono h0 h h1 h2 data0 data v k : List.length h0 <= List.length h -> extends h1 h2 -> within data0 data ->
  token_refs h h1 data v k -> token_refs h0 h2 data0 v k.
Proof.
  intros L X W R. unfold token_refs in *. destruct (is_protocol v).
  - destruct R as (i & s & E & Ws & B). exists i, s. split; [exact E|]. split; [exact (within_trans _ _ _ W Ws)|exact B].
  - eapply Forall_impl; [|exact R]. intros s Fr. destruct (fresh_extends _ _ _ _ X Fr) as [F1 F2]. split; [lia|exact F2].
Qed.

Lemma tokens_loop_ok rt n : forall h data, in_array h data -> rf_arr data < List.length h ->
  match tokens_unmarshal_loop rt n (load h data) with
  | Panic => tokens_unmarshal_loop_mem rt n h data = Panic
  | Ret (Err e) => tokens_unmarshal_loop_mem rt n h data = Ret (Err e)
  | Ret (Ok vs) => exists h' ks, tokens_unmarshal_loop_mem rt n h data = Ret (Ok (h', ks))
                    /\ extends h h' /\ map (deref h') ks = vs
                    /\ Forall2 (token_refs h h' data) vs ks
  end.
Proof.
  induction n as [|n IH]; intros h data I R.
  - cbn. exists h, []. split; [reflexivity|]. split; [apply extends_refl|]. auto.
  - cbn [tokens_unmarshal_loop tokens_unmarshal_loop_mem].
    pose proof (load_length h data I) as LL.
    destruct (load h data) as [|b r] eqn:L; [reflexivity|]. cbn [List.length] in LL.
    assert (SK : skipn 1 (load h data) = r) by (rewrite L; reflexivity).
    set (tl := N.to_nat (b2n b)). set (m := Nat.min tl (List.length r)).
    set (t := mkRef (rf_arr data) (rf_off data + 1) m).
    set (rest := mkRef (rf_arr data) (rf_off data + 1 + m) (rf_len data - 1 - m)).
    assert (It : in_array h t) by (unfold in_array, t in *; cbn [rf_arr rf_off rf_len]; lia).
    assert (Ir : in_array h rest) by (unfold in_array, rest in *; cbn [rf_arr rf_off rf_len]; lia).
    assert (Lt : load h t = firstn tl r).
    { rewrite <- SK. unfold load, t. cbn [rf_arr rf_off rf_len]. rewrite skipn_firstn_comm, skipn_skipn', firstn_firstn.
      unfold m. f_equal. lia. }
    assert (Lr : load h rest = skipn tl r).
    { rewrite <- SK. unfold load, rest. cbn [rf_arr rf_off rf_len]. rewrite !skipn_firstn_comm, !skipn_skipn'.
      unfold m. destruct (Nat.le_ge_cases tl (List.length r)) as [C|C].
      - rewrite Nat.min_l by exact C. rewrite Nat.add_assoc. f_equal.
      - rewrite Nat.min_r by exact C.
        replace (rf_len data - 1 - List.length r) with 0 by lia.
        replace (rf_len data - 1 - tl) with 0 by lia. rewrite !firstn_O. reflexivity. }
    pose proof (token_value_unmarshal_mem_ok rt h t It) as T. rewrite Lt in T.
    destruct (token_value_unmarshal rt (firstn tl r)) as [[v|e]|]; cbn [bind].
    2:{ rewrite T. reflexivity. }
    2:{ rewrite T. reflexivity. }
    destruct T as (h1 & k & E & X & Dv & Tr). rewrite E. cbn [bind].
    pose proof (extends_length _ _ X) as XL.
    assert (Ir1 : in_array h1 rest).
    { unfold in_array in *. rewrite (extends_array _ _ _ X) by exact R. exact Ir. }
    assert (Lr1 : load h1 rest = skipn tl r) by (rewrite (load_extends _ _ _ X) by exact R; exact Lr).
    specialize (IH h1 rest Ir1). cbn [rf_arr rest] in IH. specialize (IH ltac:(lia)). rewrite Lr1 in IH.
    destruct (tokens_unmarshal_loop rt n (skipn tl r)) as [[vs|e]|]; cbn [bind].
    2:{ rewrite IH. reflexivity. }
    2:{ rewrite IH. reflexivity. }
    destruct IH as (h2 & ks & E2 & X2 & Dvs & Trs). rewrite E2. cbn [bind].
    exists h2, (k :: ks). split; [reflexivity|]. split; [exact (extends_trans _ _ _ X X2)|]. split.
    + cbn [map]. rewrite Dvs. f_equal. rewrite (deref_extends h1 h2 k X2); [exact Dv|].
      exact (token_refs_range h h1 t v k R X Tr).
    + apply Forall2_cons.
      * eapply token_refs_mono; [|exact X2| |exact Tr]; [lia|]. unfold within, t. cbn [rf_arr rf_off rf_len]. unfold in_array in I. lia.
      * clear -Trs XL LL m. induction Trs as [|v' k' vs' ks' H _ IH']; [constructor|]. apply Forall2_cons; [|exact IH'].
        eapply token_refs_mono; [|apply extends_refl| |exact H]; [lia|]. unfold within, rest. cbn [rf_arr rf_off rf_len]. lia.
Qed.

Lemma tokens_unmarshal_mem_ok rt h data : in_array h data -> rf_arr data < List.length h ->
  match tokens_unmarshal rt (load h data) with
  | Panic => tokens_unmarshal_mem rt h data = Panic
  | Ret (Err e) => tokens_unmarshal_mem rt h data = Ret (Err e)
  | Ret (Ok vs) => exists h' ks, tokens_unmarshal_mem rt h data = Ret (Ok (h', ks))
                    /\ extends h h' /\ map (deref h') ks = vs
                    /\ Forall2 (token_refs h h' data) vs ks
  end.
Proof.
  intros I R. unfold tokens_unmarshal, tokens_unmarshal_mem. pose proof (load_length h data I) as LL.
  destruct (load h data) as [|b r] eqn:L; [reflexivity|]. cbn [List.length] in LL.
  set (rest := mkRef (rf_arr data) (rf_off data + 1) (rf_len data - 1)).
  assert (Lr : load h rest = r).
  { change r with (skipn 1 (b :: r)). rewrite <- L. unfold load, rest. cbn [rf_arr rf_off rf_len].
    rewrite skipn_firstn_comm, skipn_skipn'. reflexivity. }
  assert (Ir : in_array h rest) by (unfold in_array, rest in *; cbn [rf_arr rf_off rf_len]; lia).
  pose proof (tokens_loop_ok rt (N.to_nat (b2n b)) h rest Ir R) as T. rewrite Lr in T.
  destruct (tokens_unmarshal_loop rt (N.to_nat (b2n b)) r) as [[vs|e]|]; [|exact T|exact T].
  destruct T as (h' & ks & E & X & D & F). exists h', ks. split; [exact E|]. split; [exact X|]. split; [exact D|].
  clear -F LL. induction F as [|v k vs ks H _ IH]; [constructor|]. apply Forall2_cons; [|exact IH].
  eapply token_refs_mono; [|apply extends_refl| |exact H]; [lia|]. unfold within, rest. cbn [rf_arr rf_off rf_len]. lia.
Qed.

(** ** Commands *)

Lemma suffix_unread h s pre left : in_array h s -> load h s = pre ++ left ->
  load h (unread s left) = left /\ in_array h (unread s left) /\ within s (unread s left).
Proof.
  intros I L. pose proof (load_length h s I) as LL. rewrite L, app_length in LL.
  assert (E : rf_len s - List.length left = List.length pre) by lia.
  unfold unread, in_array, within, load in *. cbn [rf_arr rf_off rf_len]. rewrite E.
  split; [|lia].
  replace (skipn (rf_off s + List.length pre) (array h (rf_arr s)))
    with (skipn (List.length pre) (skipn (rf_off s) (array h (rf_arr s)))) by apply skipn_skipn'.
  replace (List.length left) with (rf_len s - List.length pre) by lia.
  rewrite <- skipn_firstn_comm, L. rewrite skipn_app, skipn_all, Nat.sub_diag. reflexivity.
Qed.

Lemma packet_body_suffix pkt : exists pre, pkt = pre ++ packet_body pkt.
Proof.
  destruct pkt as [|l r]; [exists []; reflexivity|]. unfold packet_body. destruct (b2n l =? 4)%N.
  - exists (l :: firstn 2 r). change ((l :: firstn 2 r) ++ skipn 2 r) with (l :: (firstn 2 r ++ skipn 2 r)).
    rewrite firstn_skipn. reflexivity.
  - exists (l :: firstn 1 r). change ((l :: firstn 1 r) ++ skipn 1 r) with (l :: (firstn 1 r ++ skipn 1 r)).
    rewrite firstn_skipn. reflexivity.
Qed.

(** The part of a packet that a token list is decoded from. *)
Definition token_body (pkt : bytes) (c : command) : bytes :=
  let body := snd (unmarshalLingoCmdID pkt) in
  match cmd_trx c with Some _ => skipn 2 body | None => body end.

Lemma decoded_payload rt reg e pkt e' c err : UnmarshalCmd rt reg e pkt = Ret (e', c, err) ->
  match cmd_payload c with
  | Some (PUnknown b) => exists pre, pkt = pre ++ b
  | Some (PTokens l) => tokens_unmarshal rt (token_body pkt c) = Ret (Ok l) /\ exists pre, pkt = pre ++ token_body pkt c
  | _ => True
  end.
Proof.
  intros H. unfold UnmarshalCmd in H. unfold token_body. pose proof (LingoFacts.unmarshal_id_spec pkt) as P.
  destruct (packet_id pkt) as [id|].
  2:{ destruct P as (er & r & P & _). rewrite P in H. apply ret_inj in H. injection H as _ <- _. exact I. }
  destruct P as [P _]. rewrite P in *. cbn [snd]. destruct (packet_body_suffix pkt) as [pre PRE].
  destruct (Lookup reg id (List.length (packet_body pkt)) (handleCmdID e id)) as [[t b]|].
  2:{ apply ret_inj in H. injection H as _ <- _. cbn [cmd_payload]. exists pre. exact PRE. }
  cbn [lr_trx lr_type] in H.
  assert (PAY : forall body2 u p, payload_unmarshal rt t body2 = Ret (u, Ok p) ->
            match p with PUnknown _ => False | PTokens l => tokens_unmarshal rt body2 = Ret (Ok l) | _ => True end).
  { intros body2 u p U. pose proof (payload_unmarshal_type _ _ _ _ _ U) as T. destruct p; try exact I.
    - cbn [payload_type] in T. injection T as <-. cbn [payload_unmarshal] in U.
      destruct (tokens_unmarshal rt body2) as [[vs|er]|]; cbn [bind] in U; [|discriminate U|discriminate U].
      injection U as _ <-. reflexivity.
    - discriminate T. }
  assert (GO : forall body2 tr, (do r <- payload_unmarshal rt t body2;
              match r with
              | (_, Ok p) => Ret (handleCmdID e id, mkCmd id tr (Some p), None)
              | (true, Err e0) => Ret (handleCmdID e id, mkCmd id tr None, Some (wrap "ipod.Command unmarshal: BinaryUnmarshaler: " e0))
              | (false, Err e0) => Ret (handleCmdID e id, mkCmd id tr None, Some (wrap "ipod.Command unmarshal: binary.Read: " e0))
              end) = Ret (e', c, err) ->
            cmd_payload c = None \/ exists p, cmd_payload c = Some p /\ cmd_trx c = tr /\
              match p with PUnknown _ => False | PTokens l => tokens_unmarshal rt body2 = Ret (Ok l) | _ => True end).
  { intros body2 tr G. destruct (payload_unmarshal rt t body2) as [[u [p|er]]|] eqn:U; cbn [bind] in G; [| |discriminate G].
    - assert (C : c = mkCmd id tr (Some p)) by (destruct u; apply ret_inj in G; injection G as _ <- _; reflexivity).
      right. exists p. rewrite C. split; [reflexivity|]. split; [reflexivity|]. exact (PAY _ _ _ U).
    - left. destruct u; apply ret_inj in G; injection G as _ <- _; reflexivity. }
  destruct b.
  - destruct (read_full 2 (packet_body pkt)) as [[tb|er] r] eqn:R.
    + apply GO in H. destruct H as [-> | (p & -> & -> & PP)]; [exact I|].
      assert (RR : r = skipn 2 (packet_body pkt)).
      { destruct (packet_body pkt) as [|x0 [|x1 z]]; cbn in R; try discriminate R. injection R as _ <-. reflexivity. }
      subst r. destruct p; try exact I; [|contradiction].
      split; [exact PP|]. exists (pre ++ firstn 2 (packet_body pkt)). rewrite <- app_assoc, firstn_skipn. exact PRE.
    + apply ret_inj in H. injection H as _ <- _. exact I.
  - apply GO in H. destruct H as [-> | (p & -> & -> & PP)]; [exact I|].
    destruct p; try exact I; [|contradiction]. split; [exact PP|]. exists pre. exact PRE.
Qed.

Definition payload_refs (h h' : heap) (pkt : ref) (p : payload) (k : kept_payload) : Prop :=
  match p, k with
  | PUnknown _, KPayload k => exists s, kp_refs k = [s] /\ within pkt s /\ forall ls, kp_build k ls = PUnknown (hd [] ls)
  | PTokens vs, KTokens l => Forall2 (token_refs h h' pkt) vs l
  | _, KPayload k => Forall (fresh h h') (kp_refs k)
  | _, _ => False
  end.

Lemma own_payload_ok h p : 
  match p with PUnknown _ | PTokens _ => True
  | _ => exists h' k, own_payload h p = (h', k) /\ extends h h' /\ deref_payload h' k = p
         /\ exists k', k = KPayload k' /\ Forall (fresh h h') (kp_refs k')
  end.
Proof.
  assert (PL : forall p, own_payload h p = (h, KPayload (plain p)) -> exists h' k, own_payload h p = (h', k) /\ extends h h' /\ deref_payload h' k = p
         /\ exists k', k = KPayload k' /\ Forall (fresh h h') (kp_refs k')).
  { intros q E. exists h, (KPayload (plain q)). split; [exact E|]. split; [apply extends_refl|]. split; [reflexivity|].
    exists (plain q). split; [reflexivity|apply Forall_nil]. }
  destruct p; try exact I; try (apply PL; reflexivity).
  - cbn [own_payload]. destruct (own h (field_slices vs) (fun ls => Pst t (refill vs ls))) as [h' k] eqn:O.
    destruct (own_spec _ _ _ _ _ O) as (X & D & F). exists h', (KPayload k). split; [reflexivity|]. split; [exact X|].
    split; [cbn [deref_payload]; rewrite D, refill_id; reflexivity|]. exists k. auto.
  - cbn [own_payload]. destruct (own h (ack_slices l) (fun ls => PTokenAcks (refill_acks l ls))) as [h' k] eqn:O.
    destruct (own_spec _ _ _ _ _ O) as (X & D & F). exists h', (KPayload k). split; [reflexivity|]. split; [exact X|].
    split; [cbn [deref_payload]; rewrite D, refill_acks_id; reflexivity|]. exists k. auto.
Qed.

Lemma UnmarshalCmd_mem_ok rt reg e h pkt : in_array h pkt -> rf_arr pkt < List.length h ->
  match UnmarshalCmd rt reg e (load h pkt) with
  | Panic => UnmarshalCmd_mem rt reg e h pkt = Panic
  | Ret (e', c, err) =>
      exists h' kc, UnmarshalCmd_mem rt reg e h pkt = Ret (h', (e', kc, err)) /\ extends h h'
        /\ deref_command h' kc = c
        /\ match cmd_payload c, kc_payload kc with
           | None, None => True
           | Some p, Some k => payload_refs h h' pkt p k
           | _, _ => False
           end
  end.
Proof.
  intros I R. unfold UnmarshalCmd_mem.
  destruct (UnmarshalCmd rt reg e (load h pkt)) as [[[e' c] err]|] eqn:U; cbn [bind]; [|reflexivity].
  apply decoded_payload in U. destruct c as [id tr pay]. cbn [cmd_id cmd_trx cmd_payload] in *.
  destruct pay as [p|].
  2:{ eexists h, _. split; [reflexivity|]. split; [apply extends_refl|]. split; [reflexivity|exact Logic.I]. }
  pose proof (own_payload_ok h p) as OP.
  destruct p as [t vs|vs|l|ty i|l|ty i|ty i|l|b].
  2:{ destruct U as [T [pre PRE]].
      change (match tr with Some _ => skipn 2 (snd (unmarshalLingoCmdID (load h pkt))) | None => snd (unmarshalLingoCmdID (load h pkt)) end)
        with (token_body (load h pkt) (mkCmd id tr (Some (PTokens vs)))).
      set (body := token_body (load h pkt) (mkCmd id tr (Some (PTokens vs)))) in *. clearbody body.
      destruct (suffix_unread h pkt pre body I PRE) as (L & I2 & W).
      pose proof (tokens_unmarshal_mem_ok rt h (unread pkt body) I2 R) as TM. rewrite L, T in TM.
      destruct TM as (h' & ks & E & X & D & F). rewrite E. cbn [bind].
      eexists h', _. split; [reflexivity|]. split; [exact X|]. split.
      - unfold deref_command. cbn [kc_id kc_trx kc_payload deref_payload]. rewrite D. reflexivity.
      - cbn [kc_payload payload_refs]. clear -F W. induction F as [|v k vs' ks' H _ IH]; [constructor|].
        apply Forall2_cons; [|exact IH]. eapply token_refs_mono; [|apply extends_refl|exact W|exact H]. lia. }
  8:{ destruct U as [pre PRE]. destruct (suffix_unread h pkt pre b I PRE) as (L & I2 & W).
      eexists h, _. split; [reflexivity|]. split; [apply extends_refl|]. split.
      - unfold deref_command, deref_payload, deref. cbn [kc_id kc_trx kc_payload kp_build kp_refs map hd]. rewrite L. reflexivity.
      - cbn [kc_payload payload_refs]. exists (unread pkt b). auto. }
  all: destruct OP as (h' & k & E & X & D & k' & -> & F); rewrite E;
       eexists h', _; (split; [reflexivity|]); (split; [exact X|]); split;
       [unfold deref_command; cbn [kc_id kc_trx kc_payload]; rewrite D; reflexivity
       |cbn [kc_payload payload_refs]; exact F].
Qed.

(** Decoding never writes into existing arrays, wherever the packet is. *)
Lemma own_extends {A} h ls (build : list bytes -> A) : extends h (fst (own h ls build)).
Proof. destruct (own h ls build) as [h' k] eqn:E. destruct (own_spec _ _ _ _ _ E) as [X _]. exact X. Qed.

Lemma token_extends rt h data h' k : token_value_unmarshal_mem rt h data = Ret (Ok (h', k)) -> extends h h'.
Proof.
  unfold token_value_unmarshal_mem. destruct (token_value_unmarshal rt (load h data)) as [[v|e]|]; cbn [bind];
    [|intros H; discriminate H|intros H; discriminate H].
  intros H. apply ret_inj in H. injection H as H.
  destruct (tv_token v) as [|l o d|ty [b|]|i s|t vs|l]; try (injection H as <- _; apply extends_refl);
    apply (f_equal fst) in H; cbn [fst] in H; subst h'; apply own_extends.
Qed.

Lemma tokens_extends rt n : forall h data h' ks, tokens_unmarshal_loop_mem rt n h data = Ret (Ok (h', ks)) -> extends h h'.
Proof.
  induction n as [|n IH]; intros h data h' ks H; cbn [tokens_unmarshal_loop_mem] in H.
  - injection H as <- _. apply extends_refl.
  - destruct (load h data) as [|b r]; [discriminate H|].
    destruct (token_value_unmarshal_mem rt h _) as [[[h1 v]|e]|] eqn:T; cbn [bind] in H; [|discriminate H|discriminate H].
    apply token_extends in T.
    destruct (tokens_unmarshal_loop_mem rt n h1 _) as [[[h2 vs]|e]|] eqn:L; cbn [bind] in H; [|discriminate H|discriminate H].
    apply IH in L. injection H as <- _. exact (extends_trans _ _ _ T L).
Qed.

Lemma UnmarshalCmd_mem_extends rt reg e h pkt h' r : UnmarshalCmd_mem rt reg e h pkt = Ret (h', r) -> extends h h'.
Proof.
  unfold UnmarshalCmd_mem. destruct (UnmarshalCmd rt reg e (load h pkt)) as [[[e' c] err]|]; cbn [bind]; [|intros H; discriminate H].
  assert (OP : forall p h1 k, own_payload h p = (h1, k) -> extends h h1).
  { intros p h1 k E. destruct p; cbn [own_payload] in E; try (injection E as <- _; apply extends_refl).
    - destruct (own h (field_slices vs) (fun ls => Pst t (refill vs ls))) as [h2 k2] eqn:O. injection E as <- _.
      destruct (own_spec _ _ _ _ _ O) as [X _]. exact X.
    - destruct (own h (ack_slices l) (fun ls => PTokenAcks (refill_acks l ls))) as [h2 k2] eqn:O. injection E as <- _.
      destruct (own_spec _ _ _ _ _ O) as [X _]. exact X. }
  destruct (cmd_payload c) as [p|]; [|intros H; injection H as <- _; apply extends_refl].
  destruct p as [t vs|vs|l|ty i|l|ty i|ty i|l|b].
  2:{ unfold tokens_unmarshal_mem. destruct (load h (unread pkt _)) as [|n x]; cbn [bind].
      - intros H. injection H as <- _. apply extends_refl.
      - destruct (tokens_unmarshal_loop_mem rt _ h _) as [[[h1 ks]|er]|] eqn:L; cbn [bind]; intros H; [| |discriminate H].
        + injection H as <- _. exact (tokens_extends _ _ _ _ _ _ L).
        + injection H as <- _. apply extends_refl. }
  8:{ intros H. injection H as <- _. apply extends_refl. }
  all: match goal with |- context [own_payload ?hh ?p] => destruct (own_payload hh p) as [h1 k] eqn:O end;
       intros H; injection H as <- _; exact (OP _ _ _ O).
Qed.

(** ** What each step leaves alone *)

Lemma read_change {D} fuel defs pol (rd : D -> io (D * raw_read)) m d m' d' r :
  mem_ok m -> ReadFrame_mem fuel defs pol rd m d = done (m', d', r) ->
  mem_ok m' /\ frame_change m m'
  /\ match r with
     | inl s => s = buf_Bytes (m_buf m') /\ ReadFrame_dev fuel defs rd [] d = done (d', inl (load (m_heap m') s))
     | inr e => ReadFrame_dev fuel defs rd [] d = done (d', inr e)
     end.
Proof.
  intros M E. pose proof (ReadFrame_mem_ok fuel defs pol rd m d M) as F. unfold frame_result in F. rewrite E in F.
  destruct (ReadFrame_dev fuel defs rd [] d) as [[[d1 r1]|]|]; [|discriminate F|discriminate F].
  destruct F as (m1 & r2 & E1 & M1 & F1 & R). unfold done in E1. injection E1 as <- <- <-.
  split; [exact M1|]. split; [exact F1|].
  destruct r1 as [f|e1], r as [s|e2]; try contradiction.
  - destruct R as [-> R]. split; [reflexivity|]. rewrite R. reflexivity.
  - subst. reflexivity.
Qed.

Record left_alone (k : kind) (m m' : mem) : Prop := {
  la_raw : m_raw m' = m_raw m;
  la_heap : List.length (m_heap m) <= List.length (m_heap m');
  la_buf : bf_arr (m_buf m') = bf_arr (m_buf m) \/ List.length (m_heap m) <= bf_arr (m_buf m');
  la_cert : bf_arr (m_cert m') = bf_arr (m_cert m) \/ List.length (m_heap m) <= bf_arr (m_cert m');
  la_frame : k <> Reading -> m_buf m' = m_buf m;
  la_lengths : forall a, a < List.length (m_heap m) -> List.length (array (m_heap m') a) = List.length (array (m_heap m) a);
  la_others : forall a, a < List.length (m_heap m) -> a <> m_raw m -> a <> bf_arr (m_buf m) -> a <> bf_arr (m_cert m) ->
                array (m_heap m') a = array (m_heap m) a;
  la_not_read : k <> Reading -> forall a, a < List.length (m_heap m) -> a <> bf_arr (m_cert m) ->
                array (m_heap m') a = array (m_heap m) a;
  la_certificate : k <> Certifying 0 ->
    (bf_arr (m_cert m') = bf_arr (m_cert m) -> bf_len (m_cert m) <= bf_len (m_cert m'))
    /\ firstn (bf_len (m_cert m)) (array (m_heap m') (bf_arr (m_cert m)))
       = firstn (bf_len (m_cert m)) (array (m_heap m) (bf_arr (m_cert m)))
}.

Lemma step_ok k m m' : mem_ok m -> step k m m' -> mem_ok m' /\ left_alone k m m'.
Proof.
  intros M S. pose proof M as ((B1 & B2) & (C1 & C2) & R1 & R2 & D1 & D2 & D3). destruct S as [D fuel defs pol rd d m m' d' r E|rt reg mode m pkt h' r E|pol m section data].
  - destruct (read_change fuel defs pol rd m d m' d' r M E) as (M' & (F1 & F2 & F3 & F4 & F5 & F6) & _).
    split; [exact M'|]. constructor; auto; try congruence.
    + left. rewrite F2. reflexivity.
    + intros _. rewrite F2. split; [intros _; lia|]. rewrite F5 by congruence. reflexivity.
  - pose proof (UnmarshalCmd_mem_extends _ _ _ _ _ _ _ E) as X. pose proof (extends_length _ _ X) as XL.
    split.
    + unfold mem_ok, buf_ok. cbn [m_heap m_buf m_raw m_cert]. rewrite !(extends_array _ _ _ X) by assumption.
      repeat split; auto; lia.
    + constructor; cbn [m_heap m_buf m_raw m_cert]; auto.
      * intros a Ha. rewrite (extends_array _ _ _ X) by assumption. reflexivity.
      * intros a Ha _ _ _. apply extends_array; assumption.
      * intros _ a Ha _. apply extends_array; assumption.
      * intros _. rewrite (extends_array _ _ _ X) by assumption. split; [lia|reflexivity].
  - unfold cert_section.
    set (b := if (section =? 0)%N then buf_Reset (m_cert m) else m_cert m).
    assert (Ba : bf_arr b = bf_arr (m_cert m)) by (unfold b; destruct (section =? 0)%N; reflexivity).
    assert (Bo : buf_ok (m_heap m) b).
    { unfold buf_ok. rewrite Ba. split; [exact C1|]. unfold b. destruct (section =? 0)%N; cbn; lia. }
    destruct (buf_Write pol (m_heap m) b data) as [h2 b2] eqn:W.
    destruct (buf_Write_spec pol _ _ _ _ _ Bo W) as (W1 & W2 & W3 & W4 & W5 & W6 & W7 & W8). rewrite Ba in *.
    split.
    + unfold mem_ok. cbn [m_heap m_buf m_raw m_cert].
      split; [split; [lia|rewrite W6 by assumption; exact B2]|]. split; [exact W1|].
      split; [lia|]. split; [rewrite W6 by assumption; exact R2|].
      destruct W7 as [-> | ->]; repeat split; try congruence; lia.
    + constructor; cbn [m_heap m_buf m_raw m_cert]; auto; try (intros _; reflexivity).
      * destruct W7; [left|right]; lia.
      * intros K. assert (b = m_cert m) as Eb.
        { unfold b. destruct (N.eqb_spec section 0) as [->|]; [congruence|reflexivity]. }
        rewrite Eb in *. split; [lia|]. rewrite W8. reflexivity.
Qed.

Lemma steps_ok allowed m m' : mem_ok m -> steps allowed m m' -> mem_ok m'.
Proof. intros M S. induction S as [|k m1 m2 _ IH _ S]; [exact M|]. exact (proj1 (step_ok k m1 m2 IH S)). Qed.

Lemma reachable_ok m : reachable m -> mem_ok m.
Proof. exact (steps_ok anything new_mem m new_mem_ok). Qed.

(** A slice of an array that is none of the tool's buffers keeps its bytes for ever. *)
Definition foreign (m : mem) (s : ref) : Prop :=
  rf_arr s < List.length (m_heap m) /\ rf_arr s <> m_raw m /\ rf_arr s <> bf_arr (m_buf m) /\ rf_arr s <> bf_arr (m_cert m).

Lemma foreign_lasts m m' s : mem_ok m -> foreign m s -> steps anything m m' ->
  load (m_heap m') s = load (m_heap m) s.
Proof.
  intros M F S. cut (load (m_heap m') s = load (m_heap m) s /\ mem_ok m' /\ foreign m' s); [tauto|].
  induction S as [|k m1 m2 _ IH _ S]; [auto|]. destruct IH as (L & M1 & F1 & F2 & F3 & F4).
  destruct (step_ok k m1 m2 M1 S) as [M2 A]. split; [|split; [exact M2|]].
  - rewrite <- L. apply load_same_array. apply (la_others k m1 m2 A); assumption.
  - pose proof (la_heap k m1 m2 A). split; [lia|]. rewrite (la_raw k m1 m2 A).
    destruct (la_buf k m1 m2 A), (la_cert k m1 m2 A); repeat split; lia.
Qed.

Lemma fresh_foreign m h' s : mem_ok m -> fresh (m_heap m) h' s -> foreign (mkMem h' (m_buf m) (m_raw m) (m_cert m)) s.
Proof.
  intros ((B1 & B2) & (C1 & C2) & R1 & _) [F _]. unfold foreign. cbn [m_heap m_buf m_raw m_cert]. repeat split; lia.
Qed.

(** A frame keeps its bytes until the next frame is read. *)
Lemma frame_lasts m m' s : mem_ok m -> in_frame m s -> steps no_reading m m' ->
  load (m_heap m') s = load (m_heap m) s.
Proof.
  intros M [F1 F2] S. cut (load (m_heap m') s = load (m_heap m) s /\ mem_ok m' /\ in_frame m' s); [tauto|].
  induction S as [|k m1 m2 _ IH K S]; [unfold in_frame; auto|]. destruct IH as (L & M1 & I1 & I2).
  destruct (step_ok k m1 m2 M1 S) as [M2 A]. split; [|split; [exact M2|]].
  - rewrite <- L. apply load_same_array. apply (la_not_read k m1 m2 A K).
    + destruct M1 as ((B1 & _) & _). rewrite I1. exact B1.
    + destruct M1 as (_ & _ & _ & _ & _ & _ & D3). congruence.
  - unfold in_frame. rewrite (la_frame k m1 m2 A K). auto.
Qed.

(** A certificate keeps its bytes until the next one begins. *)
Lemma certificate_lasts m m' : mem_ok m -> steps no_new_certificate m m' ->
  load (m_heap m') (cert_given m) = load (m_heap m) (cert_given m).
Proof.
  intros M S.
  cut (load (m_heap m') (cert_given m) = load (m_heap m) (cert_given m) /\ mem_ok m'
       /\ bf_arr (m_cert m) < List.length (m_heap m') /\ bf_arr (m_cert m) <> m_raw m'
       /\ bf_arr (m_cert m) <> bf_arr (m_buf m')
       /\ (bf_arr (m_cert m') = bf_arr (m_cert m) -> bf_len (m_cert m) <= bf_len (m_cert m'))); [tauto|].
  induction S as [|k m1 m2 _ IH K S].
  { pose proof M as (B & (C1 & C2) & R1 & R2 & D1 & D2 & D3).
    split; [reflexivity|]. split; [exact M|]. repeat split; auto; try congruence. }
  destruct IH as (L & M1 & I1 & I2 & I3 & I4).
  destruct (step_ok k m1 m2 M1 S) as [M2 A]. pose proof (la_heap k m1 m2 A).
  destruct (la_certificate k m1 m2 A K) as [A1 A2].
  split; [|split; [exact M2|]].
  - rewrite <- L. unfold load, cert_given, buf_Bytes. cbn [rf_arr rf_off rf_len skipn].
    destruct (Nat.eq_dec (bf_arr (m_cert m1)) (bf_arr (m_cert m))) as [E|E].
    + specialize (I4 E). rewrite E in A2.
      rewrite <- (Nat.min_l _ _ I4), <- !firstn_firstn, A2. reflexivity.
    + rewrite (la_others k m1 m2 A); auto.
  - split; [lia|]. rewrite (la_raw k m1 m2 A). split; [exact I2|]. split; [destruct (la_buf k m1 m2 A); lia|].
    destruct (la_cert k m1 m2 A) as [E|E]; [|lia]. rewrite E. intros E'. specialize (I4 E'). specialize (A1 E). lia.
Qed.
