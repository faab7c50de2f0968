(** Lemmas for C120. *)
From Coq Require Import ZifyBool ZifyNat ZifyN Lia.
From Verif Require Import Base BaseFacts GoTypes Types Payload Lingo Command SpecPayload SpecCommand CommandFacts LingoFacts GoTypesFacts CommandThms Handlers SpecHandlers HandlersThms
  SpecProtocol Packet SpecPacket PacketThms Hid SpecHid HidThms Server SpecServer ServerFacts ServerThms SpecWire ProtocolProps SpecPlug SpecTransport TransportThms SpecClock.
#[local] Opaque std_registry.

(** ** What handlers do does not depend on the log *)

Definition same_but_log {S} (h1 h2 : hstate S) : Prop :=
  h_dev h1 = h_dev h2 /\ h_cert h1 = h_cert h2 /\ h_trx h1 = h_trx h2 /\ h_ticks h1 = h_ticks h2.

Definition date_cmd (tr : option N) (d : datetime) : command := mkCmd 196621 tr (Some (PStateInfo 9 (disp_date_info d))).

Section clocks.
  Context {S : Type} (dev : DeviceGeneral S) (c1 c2 : nat -> datetime).
  Notation reg := std_registry.

  Inductive told : nat -> list event -> list event -> nat -> Prop :=
  | told_end k : told k [] [] k
  | told_same k e l1 l2 k' : told k l1 l2 k' -> told k (e :: l1) (e :: l2) k'
  | told_date k tr l1 l2 k' : told (k + 1) l1 l2 k' -> told k (Wrote (date_cmd tr (c1 k)) :: l1) (Wrote (date_cmd tr (c2 k)) :: l2) k'.

  Lemma told_refl k l : told k l l k.
  Proof. induction l; constructor; assumption. Qed.
  Lemma told_app k l1 l2 k1 : told k l1 l2 k1 -> forall m1 m2 k2, told k1 m1 m2 k2 -> told k (l1 ++ m1) (l2 ++ m2) k2.
  Proof. induction 1; intros m1 m2 k2 T; cbn [app]; [exact T|apply told_same; auto|apply told_date; auto]. Qed.
  Lemma told_le k l1 l2 k' : told k l1 l2 k' -> k <= k'.
  Proof. induction 1; lia. Qed.
  Lemma told_agree k l1 l2 k' : told k l1 l2 k' -> (forall j, k <= j < k' -> c1 j = c2 j) -> l1 = l2.
  Proof.
    induction 1 as [|k e l1 l2 k' _ IH|k tr l1 l2 k' T IH]; intros A; [reflexivity|now rewrite IH|].
    pose proof (told_le _ _ _ _ T). rewrite IH by (intros j J; apply A; lia). rewrite (A k) by lia. reflexivity.
  Qed.

  Definition steps {A} (m1 m2 : act S A) : Prop := forall h1 h2, same_but_log h1 h2 ->
    match m1 h1, m2 h2 with
    | Ret (h1', a), Ret (h2', b) => a = b /\ same_but_log h1' h2'
        /\ exists l1 l2, h_log h1' = h_log h1 ++ l1 /\ h_log h2' = h_log h2 ++ l2 /\ told (h_ticks h1) l1 l2 (h_ticks h1')
    | Panic, Panic => True
    | _, _ => False
    end.

  Lemma steps_seq {A B} (m1 m2 : act S A) (k1 k2 : A -> act S B) : steps m1 m2 -> (forall a, steps (k1 a) (k2 a)) -> steps (seq m1 k1) (seq m2 k2).
  Proof.
    intros H K h1 h2 E. unfold seq. specialize (H h1 h2 E). destruct (m1 h1) as [[g1 a]|], (m2 h2) as [[g2 b]|]; cbn [bind]; try contradiction; [|exact I].
    destruct H as (<- & E' & l1 & l2 & L1 & L2 & T). specialize (K a g1 g2 E'). destruct (k1 a g1) as [[f1 x]|], (k2 a g2) as [[f2 y]|]; try contradiction; [|exact I].
    destruct K as (X & E'' & m & m' & M1 & M2 & T'). split; [exact X|]. split; [exact E''|].
    exists (l1 ++ m), (l2 ++ m'). rewrite M1, M2, L1, L2, !app_assoc. split; [reflexivity|]. split; [reflexivity|]. exact (told_app _ _ _ _ T _ _ _ T').
  Qed.

  Lemma steps_by {A} (m : act S A) : (forall h1 h2, same_but_log h1 h2 ->
    match m h1, m h2 with
    | Ret (h1', a), Ret (h2', b) => a = b /\ same_but_log h1' h2' /\ h_ticks h1' = h_ticks h1
        /\ exists l, h_log h1' = h_log h1 ++ l /\ h_log h2' = h_log h2 ++ l
    | Panic, Panic => True
    | _, _ => False
    end) -> steps m m.
  Proof.
    intros H h1 h2 E. specialize (H h1 h2 E). destruct (m h1) as [[g1 a]|], (m h2) as [[g2 b]|]; try contradiction; [|exact I].
    destruct H as (X & E' & K & l & L1 & L2). split; [exact X|]. split; [exact E'|]. exists l, l. rewrite K. repeat split; [exact L1|exact L2|apply told_refl].
  Qed.

  Ltac prim := apply steps_by; intros h1 h2 (E1 & E2 & E3 & E4).
  Lemma steps_ret {A} (a : A) : steps (ret a) (ret a).
  Proof. prim. repeat split; auto. exists []. rewrite !app_nil_r. auto. Qed.
  Lemma steps_ask {A} c (m : S -> S * A) : steps (ask c m) (ask c m).
  Proof. prim. unfold ask. rewrite E1, E2, E3, E4. destruct (m (h_dev h2)) as [s a]. repeat split. exists [Called c]. auto. Qed.
  Lemma steps_tell c (m : S -> S) : steps (tell c m) (tell c m).
  Proof. prim. unfold tell. rewrite E1, E2, E3, E4. repeat split. exists [Called c]. auto. Qed.
  Lemma steps_respond req p : steps (respond reg req p) (respond reg req p).
  Proof. prim. unfold respond. destruct (Respond reg req p) as [cs|]; cbn [bind]; [|exact I]. repeat split; auto. exists (map Wrote cs). auto. Qed.
  Lemma steps_send p : steps (send reg p) (send reg p).
  Proof. prim. unfold send. rewrite E1, E2, E3, E4. destruct (Send reg (h_trx h2) p) as [[c cs]|]; cbn [bind]; [|exact I]. repeat split. exists (map Wrote cs). auto. Qed.
  Lemma steps_trx_reset : steps trx_reset trx_reset.
  Proof. prim. unfold trx_reset. rewrite E1, E2, E3, E4. repeat split. exists []. cbn [h_log]. rewrite !app_nil_r. auto. Qed.
  Lemma steps_cert_reset : steps cert_reset cert_reset.
  Proof. prim. unfold cert_reset. rewrite E1, E3, E4. repeat split. exists []. cbn [h_log]. rewrite !app_nil_r. auto. Qed.
  Lemma steps_cert_write b : steps (cert_write b) (cert_write b).
  Proof. prim. unfold cert_write. rewrite E1, E2, E3, E4. repeat split. exists []. cbn [h_log]. rewrite !app_nil_r. auto. Qed.
  Lemma steps_cert_bytes : steps cert_bytes cert_bytes.
  Proof. prim. unfold cert_bytes. rewrite E2. repeat split; auto. exists []. rewrite !app_nil_r. auto. Qed.

  Ltac st := lazymatch goal with
    | |- steps (ret _) _ => apply steps_ret
    | |- steps (respond _ _ _) _ => apply steps_respond
    | |- steps (seq _ _) _ => apply steps_seq; [|intros ?]
    | |- steps (ask _ _) _ => apply steps_ask
    | |- steps (tell _ _) _ => apply steps_tell
    | |- steps (send _ _) _ => apply steps_send
    | |- steps trx_reset _ => apply steps_trx_reset
    | |- steps cert_reset _ => apply steps_cert_reset
    | |- steps (cert_write _) _ => apply steps_cert_write
    | |- steps cert_bytes _ => apply steps_cert_bytes
    | |- steps (audio_Start _) _ => apply steps_send
    | |- steps (if ?b then _ else _) _ => destruct b
    | |- steps (match ?x with _ => _ end) _ => destruct x
    end.

  Lemma steps_tokens l : steps (set_tokens dev l) (set_tokens dev l).
  Proof. induction l as [|t l IH]; cbn [set_tokens]; [apply steps_ret|]. apply steps_seq; [apply steps_ask|intros ?; exact IH]. Qed.

  Lemma steps_general req : steps (HandleGeneral reg dev req) (HandleGeneral reg dev req).
  Proof.
    unfold HandleGeneral; cbv zeta. destruct (cmd_payload req) as [p|]; [|apply steps_ret].
    destruct p as [t vs|l| | | | | | | ]; try (st; fail).
    2:{ apply steps_seq; [apply steps_tokens|intros ?]. repeat st. }
    destruct t; repeat st.
  Qed.
  Lemma steps_ext req : steps (HandleExtRemote reg req) (HandleExtRemote reg req).
  Proof. unfold HandleExtRemote; cbv zeta. destruct (cmd_payload req) as [[t vs| | | | | | | | ]|]; try (st; fail). destruct t; repeat st. Qed.
  Lemma steps_audio req : steps (HandleAudio reg req) (HandleAudio reg req).
  Proof. unfold HandleAudio; cbv zeta. destruct (cmd_payload req) as [[t vs| | | | | | | | ]|]; try (st; fail). destruct t; repeat st. Qed.

  Lemma steps_date req : steps (run d <- now c1; run _ <- respond reg req (PStateInfo 9 (disp_date_info d)); ret (@None goerr))
                               (run d <- now c2; run _ <- respond reg req (PStateInfo 9 (disp_date_info d)); ret (@None goerr)).
  Proof.
    intros h1 h2 (E1 & E2 & E3 & E4). unfold seq, now, respond, Respond, BuildCommand. cbn [bind].
    assert (L : forall x, LookupID reg (PStateInfo 9 (disp_date_info x)) = Ret (Some 196621%N)) by (intros x; vm_compute; reflexivity).
    rewrite !L. cbn [bind ret log h_dev h_cert h_trx h_ticks h_log]. split; [reflexivity|].
    split; [repeat split; cbn [log h_dev h_cert h_trx h_ticks]; congruence|].
    cbn [map]. do 2 eexists. split; [reflexivity|]. split; [reflexivity|]. rewrite <- E4. apply (told_date (h_ticks h1) (trx_Copy (cmd_trx req))). constructor.
  Qed.

  Lemma steps_disp req : steps (HandleDispRemote reg c1 req) (HandleDispRemote reg c2 req).
  Proof.
    unfold HandleDispRemote; cbv zeta. destruct (cmd_payload req) as [[t vs| | | | | | | | ]|]; try (st; fail).
    destruct t; try (repeat st; fail). destruct (fu vs 0 =? 9)%N eqn:Q; [|repeat st].
    apply N.eqb_eq in Q. rewrite Q. apply steps_date.
  Qed.

  Lemma steps_packet c : steps (handlePacket reg c1 dev c) (handlePacket reg c2 dev c).
  Proof.
    unfold handlePacket. destruct (LingoID (cmd_id c) =? LingoGeneralID)%N.
    { apply steps_seq; [|intros ?; apply steps_general]. destruct (cmd_payload c) as [[t vs| | | | | | | | ]|]; try (st; fail). destruct t; repeat st. }
    destruct (LingoID (cmd_id c) =? LingoDisplayRemoteID)%N; [apply steps_seq; [apply steps_disp|intros ?; apply steps_ret]|].
    destruct (LingoID (cmd_id c) =? LingoExtRemoteID)%N; [apply steps_ext|]. destruct (LingoID (cmd_id c) =? LingoDigitalAudioID)%N; [apply steps_audio|apply steps_ret].
  Qed.

  Lemma steps_all cs : steps (handle_all reg c1 dev cs) (handle_all reg c2 dev cs).
  Proof. induction cs as [|c cs IH]; cbn [handle_all]; [apply steps_ret|]. apply steps_seq; [apply steps_packet|intros ?; exact IH]. Qed.

  Lemma out_app l e : outCmds l (l ++ e) = flat_map (fun x => match x with Wrote c => [c] | Called _ => [] end) e.
  Proof. unfold outCmds. now rewrite skipn_app, skipn_all, Nat.sub_diag. Qed.

  (** ** Runs that agree on the readings taken *)

  Lemma same_eq (h1 h2 : hstate S) : same_but_log h1 h2 -> h_log h1 = h_log h2 -> h1 = h2.
  Proof. destruct h1, h2. unfold same_but_log. cbn. intros (-> & -> & -> & ->) ->. reflexivity. Qed.

  Lemma steps_same {A} (m1 m2 : act S A) h h' a : steps m1 m2 -> m1 h = Ret (h', a) ->
    h_ticks h <= h_ticks h' /\ ((forall j, h_ticks h <= j < h_ticks h' -> c1 j = c2 j) -> m2 h = Ret (h', a)).
  Proof.
    intros ST E. specialize (ST h h ltac:(repeat split)). rewrite E in ST. destruct (m2 h) as [[h2 b]|]; [|contradiction].
    destruct ST as (<- & SB & l1 & l2 & L1 & L2 & T). split; [exact (told_le _ _ _ _ T)|].
    intros A'. rewrite (told_agree _ _ _ _ T A') in L1. rewrite (same_eq h' h2 SB); [reflexivity|congruence].
  Qed.

  Lemma loop_ticks {W} rt (tp : transport W) fuel : forall st w st' w', processFrames_loop fuel rt reg c1 dev tp st w = done (st', w') ->
    h_ticks (sv_h st) <= h_ticks (sv_h st')
    /\ ((forall j, h_ticks (sv_h st) <= j < h_ticks (sv_h st') -> c1 j = c2 j) -> processFrames_loop fuel rt reg c2 dev tp st w = done (st', w')).
  Proof.
    induction fuel as [|fuel IH]; intros st w st' w'; cbn [processFrames_loop]; [discriminate|].
    destruct (tp_ReadFrame tp w) as [[[w1 r]|]|]; try discriminate. cbn [io_bind].
    destruct r as [f|e].
    - unfold process_frame. destruct (frame_packets rt reg (sv_mode st) f) as [[[m1 evs]|]|]; try discriminate. cbn [io_bind].
      destruct (handle_all reg c1 dev (inCmds evs) (sv_h st)) as [[h1 u]|] eqn:H; try discriminate. cbn [io_bind].
      destruct (steps_same _ _ _ _ _ (steps_all (inCmds evs)) H) as [LE SM].
      destruct (write_replies rt tp m1 _ w1) as [[[m2 w2]|]|] eqn:WR; try discriminate. cbn [io_bind done].
      intros E. destruct (IH _ _ _ _ E) as [LE2 K]. cbn [sv_h] in LE2, K. split; [lia|]. intros A.
      rewrite SM by (intros j J; apply A; lia). cbn [io_bind]. rewrite WR. cbn [io_bind done]. apply K. intros j J. apply A. lia.
    - destruct e; try (apply IH). intros E. injection E as <- <-. split; [lia|reflexivity].
  Qed.

  (** ** Frames *)

  Lemma date_marshal rt m tr : exists t, (t = [] \/ List.length t = 2)
    /\ forall d, MarshalCmd rt m (date_cmd tr d) = Ret (m, Ok ([x03; x0d] ++ t ++ [x09] ++ date_bytes d)).
  Proof.
    exists (match tr with Some t => if m then be_enc 2 t else [] | None => [] end).
    split; [destruct tr, m; auto|]. intros [[[[y mo] da] ho] mi].
    assert (B : forall x, n2b (x mod 256) = n2b x) by (intros x; unfold n2b; now rewrite N.mod_mod).
    assert (Y : n2b (y mod 65536 / 256) = n2b (y / 256)).
    { change 65536%N with (256 * 256)%N. rewrite N.mod_mul_r, N.mul_comm, N.div_add, N.div_small by (try lia; apply N.mod_lt; lia). cbn [N.add]. apply B. }
    assert (Y' : n2b (y mod 65536) = n2b y).
    { unfold n2b. f_equal. change 65536%N with (256 * 256)%N. rewrite N.mod_mul_r, N.mul_comm, N.mod_add by lia. now rewrite N.mod_mod. }
    assert (Z : be_enc 2 (y mod 65536) ++ be_enc 1 (mo mod 256) ++ be_enc 1 (da mod 256) ++ be_enc 1 (ho mod 256) ++ be_enc 1 (mi mod 256)
                = date_bytes (y, mo, da, ho, mi)).
    { unfold date_bytes. cbn [be_enc app]. rewrite Y, Y', !B. reflexivity. }
    rewrite <- Z. unfold MarshalCmd, date_cmd. cbn [cmd_id cmd_trx cmd_payload]. destruct m, tr; reflexivity.
  Qed.

  Lemma told_marshal rt k l1 l2 k' : told k l1 l2 k' -> forall m,
    let out := flat_map (fun x => match x with Wrote c => [c] | Called _ => [] end) in
    match marshal_all rt m (out l1), marshal_all rt m (out l2) with
    | Ret (m1, fs1), Ret (m2, fs2) => m1 = m2 /\ frames_told c1 c2 k fs1 fs2 k'
    | Panic, Panic => True
    | _, _ => False
    end.
  Proof.
    induction 1 as [k|k e l1 l2 k' _ IH|k tr l1 l2 k' _ IH]; intros m; cbv zeta in *; cbn [flat_map].
    - split; [reflexivity|constructor].
    - destruct e as [c|c]; cbn [app marshal_all]; [|apply IH].
      destruct (MarshalCmd rt m c) as [[m' res]|]; cbn [bind]; [|exact I]. specialize (IH m').
      destruct (marshal_all rt m' (flat_map _ l1)) as [[m1 fs1]|], (marshal_all rt m' (flat_map _ l2)) as [[m2 fs2]|]; cbn [bind]; try contradiction; [|exact I].
      destruct IH as [-> F]. split; [reflexivity|]. now apply ft_same.
    - cbn [app marshal_all]. destruct (date_marshal rt m tr) as (t & T & E). rewrite !E. cbn [bind]. specialize (IH m).
      destruct (marshal_all rt m (flat_map _ l1)) as [[m1 fs1]|], (marshal_all rt m (flat_map _ l2)) as [[m2 fs2]|]; cbn [bind]; try contradiction; [|exact I].
      destruct IH as [-> F]. split; [reflexivity|].
      change NewPacketWriter with (@nil byte). rewrite <- !frame_bytes_eq. now apply (ft_date c1 c2 k t).
  Qed.

  Lemma frames_told_app k fs1 fs2 k1 : frames_told c1 c2 k fs1 fs2 k1 -> forall gs1 gs2 k2, frames_told c1 c2 k1 gs1 gs2 k2 -> frames_told c1 c2 k (fs1 ++ gs1) (fs2 ++ gs2) k2.
  Proof. induction 1; intros gs1 gs2 k2 T; cbn [app]; [exact T|apply ft_same; auto|apply ft_date; auto]. Qed.

  Lemma talk_told rt pss : forall st1 st2, sv_mode st1 = sv_mode st2 -> same_but_log (sv_h st1) (sv_h st2) ->
    match talk_all rt c1 dev st1 pss, talk_all rt c2 dev st2 pss with
    | Ret (st1', fs1), Ret (st2', fs2) => sv_mode st1' = sv_mode st2' /\ same_but_log (sv_h st1') (sv_h st2')
        /\ (exists l1 l2, h_log (sv_h st1') = h_log (sv_h st1) ++ l1 /\ h_log (sv_h st2') = h_log (sv_h st2) ++ l2 /\ told (h_ticks (sv_h st1)) l1 l2 (h_ticks (sv_h st1')))
        /\ frames_told c1 c2 (h_ticks (sv_h st1)) fs1 fs2 (h_ticks (sv_h st1'))
    | Panic, Panic => True
    | _, _ => False
    end.
  Proof.
    induction pss as [|ps pss IH]; intros st1 st2 M E; cbn [talk_all].
    - repeat split; try assumption; try apply E; [|constructor]. exists [], []. rewrite !app_nil_r. repeat split. constructor.
    - unfold talk. rewrite M. destruct (decode_all rt (sv_mode st2) ps) as [[m1 cs]|]; cbn [bind]; [|exact I].
      pose proof (steps_all cs (sv_h st1) (sv_h st2) E) as H.
      destruct (handle_all reg c1 dev cs (sv_h st1)) as [[h1 u]|], (handle_all reg c2 dev cs (sv_h st2)) as [[h2 v]|]; cbn [bind]; try contradiction; [|exact I].
      destruct H as (_ & E' & l1 & l2 & L1 & L2 & T). rewrite L1, L2, !out_app.
      pose proof (told_marshal rt _ _ _ _ T m1) as MM. cbv zeta in MM.
      destruct (marshal_all rt m1 (flat_map _ l1)) as [[m2 fs1]|], (marshal_all rt m1 (flat_map _ l2)) as [[m3 fs2]|]; cbn [bind]; try contradiction; [|exact I].
      destruct MM as [-> F]. specialize (IH (mkServer m3 h1) (mkServer m3 h2) eq_refl E'). cbn [sv_h] in IH.
      destruct (talk_all rt c1 dev (mkServer m3 h1) pss) as [[st1' gs1]|], (talk_all rt c2 dev (mkServer m3 h2) pss) as [[st2' gs2]|]; cbn [bind]; try contradiction; [|exact I].
      destruct IH as (M' & E'' & (n1 & n2 & N1 & N2 & T') & F'). split; [exact M'|]. split; [exact E''|]. split.
      + exists (l1 ++ n1), (l2 ++ n2). rewrite N1, N2, L1, L2, !app_assoc. repeat split. exact (told_app _ _ _ _ T _ _ _ T').
      + exact (frames_told_app _ _ _ _ F _ _ _ F').
  Qed.

  Lemma told_calls k l1 l2 k' : told k l1 l2 k' -> SpecHandlers.calls l1 = SpecHandlers.calls l2.
  Proof. unfold SpecHandlers.calls. induction 1 as [|k e l1 l2 k' _ IH|k tr l1 l2 k' _ IH]; cbn [flat_map]; [reflexivity|now rewrite IH|exact IH]. Qed.
End clocks.

(** ** Packets that do not ask *)

Lemma state_info_id id : In (id, disp_GetiPodStateInfo) std_registry -> id = 196620%N.
Proof.
  assert (F : forallb (fun e => implb (pty_eqb (snd e) disp_GetiPodStateInfo) (fst e =? 196620)%N) std_registry = true) by (vm_compute; reflexivity).
  intros H. rewrite forallb_forall in F. specialize (F _ H). cbn [fst snd] in F.
  change (pty_eqb disp_GetiPodStateInfo disp_GetiPodStateInfo) with true in F. cbn [implb] in F. now apply N.eqb_eq in F.
Qed.

Lemma payload_asks rt body used vs : payload_unmarshal rt disp_GetiPodStateInfo body = Ret (used, Ok (Pst disp_GetiPodStateInfo vs)) -> fu vs 0 = 9%N ->
  nth_error body 0 = Some x09.
Proof.
  cbn [payload_unmarshal]. unfold binary_read. change (struct_size (layout disp_GetiPodStateInfo)) with (Some 1).
  destruct body as [|x body]; [discriminate|]. rewrite read_full_ok by (cbn; lia). cbn [fst firstn layout dec_fields].
  intros E Q. injection E as _ E. rewrite <- E in Q. clear E.
  change (b2n x = b2n x09) in Q || (cbn in Q; change (b2n x = b2n x09) in Q). apply b2n_inj in Q. now rewrite Q.
Qed.

Lemma date_asked rt m p m' c e vs : UnmarshalCmd rt std_registry m p = Ret (m', c, e) -> cmd_payload c = Some (Pst disp_GetiPodStateInfo vs) -> fu vs 0 = 9%N ->
  may_ask_date p.
Proof.
  intros U P Q. destruct e as [e|].
  - exfalso. revert U P. unfold UnmarshalCmd. destruct (unmarshalLingoCmdID p) as [[id|x] body]; cbv zeta.
    2:{ intros [= _ <- _]. discriminate. }
    destruct (Lookup std_registry id (List.length body) (handleCmdID m id)) as [lr|].
    2:{ intros [= _ <- _]. discriminate. }
    destruct (if lr_trx lr then _ else _) as [[tr terr] body2]. destruct terr; [intros [= _ <- _]; discriminate|].
    destruct (payload_unmarshal rt (lr_type lr) body2) as [[[|] [q|y]]|]; cbn [bind]; try discriminate; intros [= _ <- _]; discriminate.
  - apply UnmarshalCmd_ok in U as (id & t & b & q & body & I & _ & L & (used & Un) & C).
    assert (q = Pst disp_GetiPodStateInfo vs) as ->.
    { destruct b; [destruct C as (x & y & _ & ->)|destruct C as (_ & ->)]; cbn [cmd_payload] in P; congruence. }
    pose proof (payload_unmarshal_type _ _ _ _ _ Un) as T. cbn [payload_type] in T. injection T as <-.
    apply Lookup_Some in L.
    assert (N : id = 196620%N).
    { apply state_info_id. apply types_of_in. destruct L as [(pre & post & -> & _)|(-> & _)]; [apply in_elt|left; reflexivity]. }
    subst id. pose proof (payload_asks _ _ _ _ Un Q) as A. clear L Un.
    destruct p as [|l [|k r]]; try discriminate I. cbn [packet_id] in I. pose proof (b2n_lt l). pose proof (b2n_lt k).
    unfold packet_body in C. destruct (b2n l =? 4)%N eqn:F; [destruct r as [|z r]; [discriminate|]; pose proof (b2n_lt z); exfalso; assert (X : (4 * 65536 + b2n k * 256 + b2n z = 196620)%N) by congruence; lia|].
    assert (X : (b2n l * 65536 + b2n k = 196620)%N) by congruence. clear I.
    assert (l = x03) as -> by (apply b2n_inj; change (b2n x03) with 3%N; lia). assert (k = x0c) as -> by (apply b2n_inj; change (b2n x03) with 3%N in X; change (b2n x0c) with 12%N; lia).
    cbn [skipn] in C. exists r. split; [reflexivity|]. destruct b; [destruct C as (x & y & -> & _); right; exact A|destruct C as (-> & _); left; exact A].
Qed.

Section unasked.
  Context {S : Type} (dev : DeviceGeneral S) (clock : nat -> datetime).
  Notation reg := std_registry.

  Definition keeps {A} (m : act S A) : Prop := forall h, match m h with Ret (h', _) => h_ticks h' = h_ticks h | Panic => True end.
  Lemma keeps_seq {A B} (m : act S A) (k : A -> act S B) : keeps m -> (forall a, keeps (k a)) -> keeps (seq m k).
  Proof. intros H K h. unfold seq. specialize (H h). destruct (m h) as [[h1 a]|]; cbn [bind]; [|exact I]. specialize (K a h1). destruct (k a h1) as [[h2 b]|]; congruence. Qed.
  Lemma keeps_ret {A} (a : A) : keeps (ret a). Proof. intros h. reflexivity. Qed.
  Lemma keeps_ask {A} c (m : S -> S * A) : keeps (ask c m). Proof. intros h. unfold ask. destruct (m (h_dev h)). reflexivity. Qed.
  Lemma keeps_tell c (m : S -> S) : keeps (tell c m). Proof. intros h. reflexivity. Qed.
  Lemma keeps_respond req p : keeps (respond reg req p). Proof. intros h. unfold respond. destruct (Respond reg req p); cbn [bind]; [reflexivity|exact I]. Qed.
  Lemma keeps_send p : keeps (send reg p). Proof. intros h. unfold send. destruct (Send reg (h_trx h) p) as [[c cs]|]; cbn [bind]; [reflexivity|exact I]. Qed.
  Lemma keeps_trx_reset : keeps trx_reset. Proof. intros h. reflexivity. Qed.
  Lemma keeps_cert_reset : keeps cert_reset. Proof. intros h. reflexivity. Qed.
  Lemma keeps_cert_write b : keeps (cert_write b). Proof. intros h. reflexivity. Qed.
  Lemma keeps_cert_bytes : keeps cert_bytes. Proof. intros h. reflexivity. Qed.

  Ltac kp := lazymatch goal with
    | |- keeps (ret _) => apply keeps_ret
    | |- keeps (respond _ _ _) => apply keeps_respond
    | |- keeps (seq _ _) => apply keeps_seq; [|intros ?]
    | |- keeps (ask _ _) => apply keeps_ask
    | |- keeps (tell _ _) => apply keeps_tell
    | |- keeps (send _ _) => apply keeps_send
    | |- keeps trx_reset => apply keeps_trx_reset
    | |- keeps cert_reset => apply keeps_cert_reset
    | |- keeps (cert_write _) => apply keeps_cert_write
    | |- keeps cert_bytes => apply keeps_cert_bytes
    | |- keeps (audio_Start _) => apply keeps_send
    | |- keeps (if ?b then _ else _) => destruct b
    | |- keeps (match ?x with _ => _ end) => destruct x
    end.

  Lemma keeps_tokens l : keeps (set_tokens dev l).
  Proof. induction l as [|t l IH]; cbn [set_tokens]; [apply keeps_ret|]. apply keeps_seq; [apply keeps_ask|intros ?; exact IH]. Qed.

  Lemma keeps_packet c : (forall vs, cmd_payload c = Some (Pst disp_GetiPodStateInfo vs) -> fu vs 0 <> 9%N) -> keeps (handlePacket reg clock dev c).
  Proof.
    intros H. unfold handlePacket. destruct (LingoID (cmd_id c) =? LingoGeneralID)%N.
    { apply keeps_seq; [destruct (cmd_payload c) as [[t vs| | | | | | | | ]|]; try (kp; fail); destruct t; repeat kp|intros ?].
      unfold HandleGeneral; cbv zeta. destruct (cmd_payload c) as [p|]; [|apply keeps_ret]. destruct p as [t vs|l| | | | | | | ]; try (kp; fail).
      2:{ apply keeps_seq; [apply keeps_tokens|intros ?]. repeat kp. }
      destruct t; repeat kp. }
    destruct (LingoID (cmd_id c) =? LingoDisplayRemoteID)%N.
    { apply keeps_seq; [|intros ?; apply keeps_ret]. unfold HandleDispRemote; cbv zeta.
      destruct (cmd_payload c) as [[t vs| | | | | | | | ]|]; try (kp; fail). destruct t; try (repeat kp; fail).
      specialize (H vs eq_refl). destruct (fu vs 0 =? 9)%N eqn:Q; [apply N.eqb_eq in Q; contradiction|]. repeat kp. }
    destruct (LingoID (cmd_id c) =? LingoExtRemoteID)%N.
    { unfold HandleExtRemote; cbv zeta. destruct (cmd_payload c) as [[t vs| | | | | | | | ]|]; try (kp; fail). destruct t; repeat kp. }
    destruct (LingoID (cmd_id c) =? LingoDigitalAudioID)%N; [|apply keeps_ret].
    unfold HandleAudio; cbv zeta. destruct (cmd_payload c) as [[t vs| | | | | | | | ]|]; try (kp; fail). destruct t; repeat kp.
  Qed.

  Lemma keeps_decoded rt ps : Forall (fun p => ~ may_ask_date p) ps -> forall m, match decode_all rt m ps with Ret (_, cs) => keeps (handle_all reg clock dev cs) | Panic => True end.
  Proof.
    induction 1 as [|p ps NA _ IH]; intros m; cbn [decode_all]; [apply keeps_ret|].
    destruct (UnmarshalCmd rt std_registry m p) as [[[m1 c] e]|] eqn:U; cbn [bind]; [|exact I]. specialize (IH m1).
    destruct (decode_all rt m1 ps) as [[m2 cs]|]; cbn [bind]; [|exact I]. cbn [handle_all]. apply keeps_seq; [|intros ?; exact IH].
    apply keeps_packet. intros vs P Q. apply NA. exact (date_asked rt m p m1 c e vs U P Q).
  Qed.

  Lemma keeps_talk rt pss : Forall (Forall (fun p => ~ may_ask_date p)) pss -> forall st,
    match talk_all rt clock dev st pss with Ret (st', _) => h_ticks (sv_h st') = h_ticks (sv_h st) | Panic => True end.
  Proof.
    induction 1 as [|ps pss NA _ IH]; intros st; cbn [talk_all]; [reflexivity|]. unfold talk. pose proof (keeps_decoded rt ps NA (sv_mode st)) as K.
    destruct (decode_all rt (sv_mode st) ps) as [[m1 cs]|]; cbn [bind]; [|exact I]. specialize (K (sv_h st)).
    destruct (handle_all reg clock dev cs (sv_h st)) as [[h1 u]|]; cbn [bind]; [|exact I].
    destruct (marshal_all rt m1 _) as [[m2 fs]|]; cbn [bind]; [|exact I]. specialize (IH (mkServer m2 h1)).
    destruct (talk_all rt clock dev _ pss) as [[st' gs]|]; cbn [bind]; [|exact I]. cbn [sv_h] in IH. congruence.
  Qed.
End unasked.
