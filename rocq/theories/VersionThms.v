(** Lemmas for C117. *)
From Coq Require Import ZifyBool ZifyNat ZifyN Lia.
From Verif Require Import Base BaseFacts GoTypes Types Payload Lingo Command Handlers Packet Hid Trace Server Text Log Send Main
  SpecProtocol ProtocolFacts ProtocolThms ProtocolMore RetryThms PayloadThms LingoFacts CommandFacts CommandThms SpecPayload SpecCommand SpecHandlers HandlersFacts HandlersThms ReplyThms ProtocolTokens SpecOrder OrderThms SpecIdentify IdentifyThms SpecHeld HeldThms SpecVersions.

(** ** The relation *)

Notation "a << b" := (same_unless_crash a b) (at level 70).
Notation "a <<< b" := (same_unless_crash_io a b) (at level 70).

Lemma same_refl {A} (x : outcome A) : x << x. Proof. right. reflexivity. Qed.
Lemma same_io_refl {A} (x : option (outcome A)) : x <<< x. Proof. right. reflexivity. Qed.
Lemma same_bind {A B} (x y : outcome A) (f g : A -> outcome B) : x << y -> (forall a, f a << g a) -> bind x f << bind y g.
Proof. intros [-> | ->] H; [left; reflexivity|]. destruct y as [a|]; [apply H|left; reflexivity]. Qed.
Lemma same_some {A} (x y : outcome A) : x << y -> Some x <<< Some y.
Proof. intros [-> | ->]; [left|right]; reflexivity. Qed.
Lemma same_io_bind {A B} (x y : io A) (f g : A -> io B) : x <<< y -> (forall a, f a <<< g a) -> io_bind x f <<< io_bind y g.
Proof. intros [-> | ->] H; [left; reflexivity|]. destruct y as [[a|]|]; [apply H|left; reflexivity|right; reflexivity]. Qed.

#[local] Hint Resolve same_refl same_io_refl : core.

(** ** Commands *)

Lemma token_same data : token_value_unmarshal true data << token_value_unmarshal false data.
Proof.
  unfold token_value_unmarshal. destruct (read_full 2 data) as [[idb|e] r]; [|auto]. cbv zeta. destruct (token_kind_of _ _); auto. left. reflexivity.
Qed.

Lemma tokens_same n : forall data, tokens_unmarshal_loop true n data << tokens_unmarshal_loop false n data.
Proof.
  induction n as [|n IH]; intros data; cbn [tokens_unmarshal_loop]; [auto|]. destruct data as [|k r]; [auto|]. cbv zeta.
  apply same_bind; [apply token_same|]. intros [v|e]; [|auto]. apply same_bind; [apply IH|auto].
Qed.

Lemma decode_same reg e pkt : UnmarshalCmd true reg e pkt << UnmarshalCmd false reg e pkt.
Proof.
  unfold UnmarshalCmd. destruct (unmarshalLingoCmdID pkt) as [[id|x] body]; [|auto]. cbv zeta. destruct (Lookup reg id _ _) as [lr|]; [|auto].
  destruct (if lr_trx lr then _ else _) as [[tr [x|]] body2]; [auto|]. apply same_bind; [|auto].
  destruct (lr_type lr); try (now right). cbv beta iota zeta delta [payload_unmarshal]. apply same_bind; [|auto].
  unfold tokens_unmarshal. destruct body2 as [|n r]; [auto|]. apply tokens_same.
Qed.

Lemma encode_same e c : MarshalCmd true e c << MarshalCmd false e c.
Proof.
  unfold MarshalCmd. cbv zeta. destruct (cmd_payload c) as [p|]; [|auto].
  assert (P : match payload_marshaler true p, payload_marshaler false p with
              | Some x, Some y => x << y | None, None => True | _, _ => False end).
  { destruct p as [t vs|toks|acks| | | | | |]; cbn [payload_marshaler]; unfold Payload.ret_ok; auto.
    - destruct (match t with general_ReturniPodName => _ | _ => _ end) as [x|]; auto.
    - unfold tokens_marshal. apply same_bind; [|auto]. induction toks as [|v l IH]; cbn [tokens_marshal_loop]; [auto|].
      apply same_bind; [unfold token_value_marshal; cbv zeta; destruct (tv_token v); auto; left; reflexivity|].
      intros [b|x]; [|auto]. apply same_bind; [exact IH|auto].
    - unfold acks_marshal. apply same_bind; [|auto]. induction acks as [|v l IH]; cbn [acks_marshal_loop]; [auto|].
      apply same_bind; [unfold ack_marshal; cbv zeta; destruct (ta_ack v); auto; left; reflexivity|].
      intros [b|x]; [|auto]. apply same_bind; [exact IH|auto]. }
  destruct (payload_marshaler true p) as [x|], (payload_marshaler false p) as [y|]; try contradiction; [|auto]. apply same_bind; [exact P|auto].
Qed.

(** ** The server *)

Lemma packets_same reg fuel : forall mode frame, read_packets fuel true reg mode frame <<< read_packets fuel false reg mode frame.
Proof.
  induction fuel as [|fuel IH]; intros mode frame; cbn [read_packets]; [auto|]. apply same_io_bind; [auto|]. intros [[frame' pkt] err].
  assert (K : forall e, io_bind (read_packets fuel true reg mode frame') (fun '(mode', evs) => done (mode', PktErr e :: evs))
    <<< io_bind (read_packets fuel false reg mode frame') (fun '(mode', evs) => done (mode', PktErr e :: evs))).
  { intros e. apply same_io_bind; [apply IH|]. intros [mode' evs]. auto. }
  destruct err as [[]|]; auto. apply same_io_bind; [apply same_some, decode_same|]. intros [[mode1 c] u]. apply same_io_bind; [apply IH|].
  intros [mode' evs]. auto.
Qed.

Lemma frame_packets_same reg mode frame : frame_packets true reg mode frame <<< frame_packets false reg mode frame.
Proof. apply packets_same. Qed.

Lemma replies_same {W} (tp : transport W) cmds : forall mode w, write_replies true tp mode cmds w <<< write_replies false tp mode cmds w.
Proof.
  induction cmds as [|c cmds IH]; intros mode w; cbn [write_replies]; [auto|]. apply same_io_bind; [apply same_some, encode_same|]. intros [mode' res]. cbv zeta.
  destruct (WritePacket _ _) as [f x]. apply same_io_bind; [auto|]. intros [w' y]. apply IH.
Qed.

Lemma frame_same {S W} reg clock dev (tp : transport W) (st : server S) w f :
  process_frame true reg clock dev tp st w f <<< process_frame false reg clock dev tp st w f.
Proof.
  unfold process_frame. apply same_io_bind; [apply frame_packets_same|]. intros [mode1 evs]. apply same_io_bind; [auto|]. intros [h1 u].
  apply same_io_bind; [apply replies_same|]. intros [mode2 w']. auto.
Qed.

Lemma server_same {S W} reg clock dev (tp : transport W) fuel : forall (st : server S) w,
  processFrames_loop fuel true reg clock dev tp st w <<< processFrames_loop fuel false reg clock dev tp st w.
Proof.
  induction fuel as [|fuel IH]; intros st w; cbn [processFrames_loop]; [auto|]. apply same_io_bind; [auto|]. intros [w1 [f|e]].
  - apply same_io_bind; [apply frame_same|]. intros [st' w2]. apply IH.
  - destruct e; auto.
Qed.

(** ** The tool *)

Lemma replies_log_same {W} errText (tp : transport W) cmds : forall mode w,
  write_replies_log errText true tp mode cmds w <<< write_replies_log errText false tp mode cmds w.
Proof.
  induction cmds as [|c cmds IH]; intros mode w; cbn [write_replies_log]; [auto|]. cbv zeta. apply same_io_bind; [apply same_some, encode_same|]. intros [mode' res].
  destruct (WritePacket _ _) as [f x]. apply same_io_bind; [auto|]. intros [w' y]. apply same_io_bind; [apply IH|]. intros [[mode2 w2] l]. auto.
Qed.

Lemma server_log_same {W} errText sdump certLog reg clock (tp : transport W) fuel : forall st w,
  processFrames_log fuel errText sdump certLog true reg clock tp st w <<< processFrames_log fuel errText sdump certLog false reg clock tp st w.
Proof.
  induction fuel as [|fuel IH]; intros st w; cbn [processFrames_log]; [auto|]. apply same_io_bind; [auto|]. intros [w1 [f|e]].
  - apply same_io_bind.
    + unfold process_frame_log. cbv zeta. apply same_io_bind; [apply frame_packets_same|]. intros [mode1 evs]. apply same_io_bind; [auto|]. intros [h1 u].
      apply same_io_bind; [apply replies_log_same|]. intros [[mode2 w'] l3]. auto.
    + intros [[st1 w2] l1]. apply same_io_bind; [apply IH|]. intros [[st' w'] l]. auto.
  - destruct e; auto; apply same_io_bind; auto; intros [[st' w'] l]; auto.
Qed.

Lemma view_same reg defs spares fuel : forall n mode q,
  view_loop fuel true reg defs spares n mode q <<< view_loop fuel false reg defs spares n mode q.
Proof.
  induction fuel as [|fuel IH]; intros n mode q; cbn [view_loop]; [auto|]. destruct (Head q) as [m|]; [|auto]. cbv zeta. apply same_io_bind; [auto|]. intros [q' [f|e]].
  - apply same_io_bind; [apply frame_packets_same|]. intros [mode' evs]. apply same_io_bind; [apply IH|]. intros [q'' es]. auto.
  - destruct e; auto; apply same_io_bind; auto; intros [q'' es]; auto.
Qed.

Lemma dump_same reg defs spares r : dumpTrace true reg defs spares r <<< dumpTrace false reg defs spares r.
Proof. unfold dumpTrace. apply same_io_bind; [auto|]. intros [q|e]; [|auto]. apply same_io_bind; [apply view_same|auto]. Qed.

Lemma tool_same {D} (devs : io_rw D) os errText sdump certLog clock order spares fuel fuel2 inv w :
  run_tool devs os errText sdump certLog true clock order spares fuel fuel2 inv w
  <<< run_tool devs os errText sdump certLog false clock order spares fuel fuel2 inv w.
Proof.
  unfold run_tool. destruct (iv_cmd inv); auto.
  - unfold serve_action. cbv zeta. destruct (_ =? _)%string; [auto|]. destruct (openDevice _ _ _) as [d|e]; [|auto]. destruct (prepare_trace _ _ _) as [w2 [[[old fin|x]|]|e]]; auto.
    + apply same_io_bind; [|intros [[d' file] l]; auto]. unfold serve_traced. apply same_io_bind; [apply server_log_same|]. intros [[st w'] l]. auto.
    + apply same_io_bind; [|intros [d' l]; auto]. unfold serve_plain. apply same_io_bind; [apply server_log_same|]. intros [[st w'] l]. auto.
  - unfold replay_action, with_trace. cbv zeta. destruct (_ =? _)%string; [auto|]. destruct (openTraceFile _ _ _) as [[content fin|x]|e]; auto.
    apply same_io_bind; [apply server_log_same|]. intros [[st w'] l]. auto.
  - unfold view_action, with_trace. cbv zeta. destruct (_ =? _)%string; [auto|]. destruct (openTraceFile _ _ _) as [[content fin|x]|e]; auto.
    apply same_io_bind; [apply dump_same|]. auto.
Qed.

Lemma receiver_same {S} reg clock (g : DeviceGeneral S) defs spares h got :
  receiver true reg clock g defs spares h got <<< receiver false reg clock g defs spares h got.
Proof. unfold receiver. apply same_io_bind; [apply server_same|]. intros [st w]. auto. Qed.

Lemma send_same {S D} reg clock (g : DeviceGeneral S) defs spares h (rd : D -> io (D * raw_read)) wd s s' :
  send_steps true reg clock g defs spares h rd wd s s' -> send_steps false reg clock g defs spares h rd wd s s'
  .
Proof.
  induction 1 as [s|s s1 s' _ IH H]; [constructor|]. econstructor; [exact IH|].
  destruct H as [r d got r' d' b NP E|r b d got d' x W E]; destruct (receiver_same reg clock g defs spares h got) as [P|P].
  - now elim NP.
  - constructor; [now rewrite <- P|exact E].
  - congruence.
  - constructor; [now rewrite <- P|exact E].
Qed.

(** ** The machine *)

Lemma tokens_machine n : forall r, comes_upon_strange n r = false -> tokens true n r = tokens false n r.
Proof.
  induction n as [|n IH]; intros r; [reflexivity|]. destruct r as [|k r]; [reflexivity|]. cbn [comes_upon_strange tokens]. cbv zeta.
  destruct (token _); try reflexivity; [|discriminate]. intros H. now rewrite (IH _ H).
Qed.

Lemma tokens_strange n : forall r, comes_upon_strange n r = true -> tokens true n r = CrashingOne.
Proof.
  induction n as [|n IH]; intros r; [discriminate|]. destruct r as [|k r]; [discriminate|]. cbn [comes_upon_strange tokens]. cbv zeta.
  destruct (token _); try discriminate; [|reflexivity]. intros H. now rewrite (IH _ H).
Qed.

Definition row_of (id : bytes) (r : request) : bool := if list_eq_dec Byte.byte_eq_dec id (fst (fst r)) then true else false.

Lemma rows_same clock : exists a b, filter (row_of [x00; x39]) a = [] /\ filter (row_of [x00; x39]) b = []
  /\ forall rt, requests rt clock = a ++ ([x00; x39], None, identification rt) :: b.
Proof.
  exists (firstn 20 (requests true clock)), (skipn 21 (requests true clock)). split; [vm_compute; reflexivity|]. split; [vm_compute; reflexivity|].
  intros [|]; reflexivity.
Qed.

#[local] Opaque requests.

Lemma received_same clock m p : receive true clock m p = if strange_packet (numbered m) p then None else receive false clock m p.
Proof.
  destruct (split_id p) as [[id b]|] eqn:SP.
  2:{ replace (strange_packet (numbered m) p) with false; [unfold receive; now rewrite SP|]. unfold split_id in SP. destruct p as [|x [|y r]]; [reflexivity|destruct x; reflexivity|].
      destruct x; try discriminate SP. reflexivity. }
  destruct (rows_same clock) as (ra & rb & EA & EB & R). destruct (list_eq_dec Byte.byte_eq_dec id [x00; x39]) as [->|NE].
  - unfold receive. rewrite SP. cbv zeta. cbn [numbered].
    change (filter _ (requests true clock)) with (filter (row_of [x00; x39]) (requests true clock)).
    change (filter _ (requests false clock)) with (filter (row_of [x00; x39]) (requests false clock)).
    rewrite !R, !filter_app. cbn [filter]. change (row_of [x00; x39] ([x00; x39], None, identification true)) with true.
    change (row_of [x00; x39] ([x00; x39], None, identification false)) with true. cbv iota.
    rewrite EA, EB. cbn [app]. unfold understand. cbn [find fst snd]. cbn [switched].
    apply split_parts in SP. cbn [app] in SP. subst p. cbn [strange_packet]. unfold take_number.
    assert (I : forall m' c, identification true m' c
      = if match c with n :: r => comes_upon_strange (N.to_nat (b2n n)) r | [] => false end then None else identification false m' c).
    { intros m' c. unfold identification. destruct c as [|n r]; [reflexivity|]. destruct (comes_upon_strange _ r) eqn:C; [now rewrite (tokens_strange _ _ C)|now rewrite (tokens_machine _ _ C)]. }
    destruct (numbered m).
    + destruct (Nat.ltb (List.length b) 2) eqn:L; [destruct b as [|x [|y b]]; [reflexivity|reflexivity|discriminate L]|]. rewrite I.
      destruct (match skipn 2 b with [] => false | n :: r => _ end); reflexivity.
    + rewrite I. destruct (match b with [] => false | n :: r => _ end); reflexivity.
  - replace (strange_packet (numbered m) p) with false.
    2:{ unfold split_id in SP. destruct p as [|x [|y r]]; [reflexivity|destruct x; reflexivity|]. destruct x; try reflexivity.
        injection SP as <- _. destruct y; try reflexivity. now elim NE. }
    unfold receive. rewrite SP. cbv zeta. cbn [numbered].
    change (filter _ (requests true clock)) with (filter (row_of id) (requests true clock)).
    change (filter _ (requests false clock)) with (filter (row_of id) (requests false clock)).
    rewrite !R, !filter_app. cbn [filter].
    assert (X : forall rt, row_of id ([x00; x39], None, identification rt) = false).
    { intros rt. unfold row_of. cbn [fst]. destruct (list_eq_dec Byte.byte_eq_dec id [x00; x39]) as [E|_]; [now elim NE|reflexivity]. }
    rewrite !X. reflexivity.
Qed.

Lemma switched_behind p pre b e : split_id p = Some (pre, b) -> switched e pre = numbers_behind e p.
Proof.
  unfold split_id. destruct p as [|x [|y r]]; [discriminate|destruct x; discriminate|]. destruct x; try (intros [= <- _]; destruct y; reflexivity).
  cbn [List.length]. destruct r; [discriminate|]. intros [= <- _]. reflexivity.
Qed.

Lemma received_numbers rt clock m p m1 l : receive rt clock m p = Some (m1, l) -> numbered m1 = numbers_behind (numbered m) p.
Proof.
  destruct (split_id p) as [[pre b]|] eqn:S.
  2:{ unfold receive. rewrite S. intros E. injection E as <- _. destruct p as [|x [|y r]]; [reflexivity|destruct x; reflexivity|]. unfold split_id in S.
      destruct x; try discriminate S. reflexivity. }
  intros R. rewrite <- (switched_behind _ _ _ _ S). rewrite (receive_react rt clock m p pre b S) in R.
  pose proof (rows_mode rt clock) as T. revert T R. generalize (requests rt clock). intros rows T R. unfold react in R. cbn [numbered] in R.
  destruct (understand (switched (numbered m) pre) _ b) as [[[t c] f]|] eqn:U; [|injection R as <- _; reflexivity].
  unfold answered in R. destruct (f _ c) as [[m2 l2]|] eqn:F; [|discriminate].
  apply understood_row in U as (id & size & IN). apply filter_In in IN as [IN _]. rewrite Forall_forall in T. specialize (T _ IN _ _ _ _ F). cbn [numbered] in T.
  destruct (with_numbers t (last_number m2) l2) as [n rs]. injection R as <- _. exact T.
Qed.

Lemma strange_app a b : forall e, strange_among e (a ++ b) = strange_among e a || strange_among (fold_left numbers_behind a e) b.
Proof. induction a as [|p a IH]; intros e; [reflexivity|]. cbn [app strange_among fold_left]. rewrite IH. apply Bool.orb_assoc. Qed.

Lemma all_same clock ps : forall m,
  receive_all true clock m ps = (if strange_among (numbered m) ps then None else receive_all false clock m ps)
  /\ forall m1 l, receive_all false clock m ps = Some (m1, l) -> numbered m1 = fold_left numbers_behind ps (numbered m).
Proof.
  induction ps as [|p ps IH]; intros m; [split; [reflexivity|intros m1 l [= <- _]; reflexivity]|].
  cbn [strange_among receive_all fold_left]. rewrite (received_same clock m p).
  destruct (receive false clock m p) as [[m1 l1]|] eqn:R.
  - rewrite <- (received_numbers _ _ _ _ _ _ R). destruct (IH m1) as [E N]. split.
    + destruct (strange_packet (numbered m) p); [reflexivity|]. cbn [orb]. rewrite E. destruct (strange_among (numbered m1) ps); reflexivity.
    + destruct (receive_all false clock m1 ps) as [[m2 l2]|]; [|discriminate]. intros m3 l [= <- _]. exact (N _ _ eq_refl).
  - split; [|discriminate]. destruct (strange_packet (numbered m) p), (strange_among (numbers_behind (numbered m) p) ps); reflexivity.
Qed.

Lemma conversation_same clock pss : forall m,
  conversation true clock m pss = if strange_among (numbered m) (List.concat pss) then None else conversation false clock m pss.
Proof.
  induction pss as [|ps pss IH]; intros m; [reflexivity|]. cbn [List.concat]. rewrite strange_app.
  destruct (all_same clock ps m) as [E N]. cbn [conversation]. unfold receive_frame. rewrite E.
  destruct (receive_all false clock m ps) as [[m1 l1]|].
  - rewrite <- (N _ _ eq_refl). destruct (strange_among (numbered m) ps); [reflexivity|]. cbn [orb]. rewrite IH.
    destruct (strange_among (numbered m1) (List.concat pss)); reflexivity.
  - destruct (strange_among (numbered m) ps), (strange_among _ (List.concat pss)); reflexivity.
Qed.

(** ** Exactly when decoding differs *)

Lemma tokens_differ n r : tokens_unmarshal_loop true n r = if comes_upon_strange n r then Panic else tokens_unmarshal_loop false n r.
Proof.
  pose proof (tokens_read true n r) as T. pose proof (tokens_read false n r) as F. destruct (comes_upon_strange n r) eqn:C.
  - now rewrite (tokens_strange _ _ C) in T.
  - rewrite (tokens_machine _ _ C) in T. destruct (tokens_same n r) as [P|P]; [|exact P].
    destruct (tokens false n r) as [l| |]; [destruct T as (vs & T & _); congruence|destruct T as (e & T); congruence|congruence].
Qed.

Lemma decode_differ e p : UnmarshalCmd true std_registry e p = if strange_packet e p then Panic else UnmarshalCmd false std_registry e p.
Proof.
  destruct (packet_id p) as [id|] eqn:P.
  2:{ replace (strange_packet e p) with false.
      - destruct (decode_same std_registry e p) as [Z|Z]; [|exact Z]. destruct (UnmarshalCmd_short true std_registry e p P) as (y & E & _). congruence.
      - destruct p as [|a [|b r]]; [reflexivity|destruct a; reflexivity|]. destruct a; try reflexivity. discriminate P. }
  pose proof (packet_of p id P) as PE. destruct (N.eq_dec id 57) as [->|NI].
  - change (id_prefix 57) with [x00; x39] in PE.
    rewrite !(UnmarshalCmd_found _ std_registry e p 57 general_SetFIDTokenValues e P (tokens_lookup _ _)). cbv zeta.
    change (mode_after e [57%N]) with e. remember (packet_body p) as b eqn:B. clear B. subst p. cbn [app strange_packet].
    destruct (e && Nat.ltb (List.length b) 2) eqn:SH.
    { apply andb_prop in SH as [-> SH]. destruct b as [|y [|z b]]; [| |discriminate SH]; reflexivity. }
    clear SH. generalize (if e then Some (be_dec (firstn 2 b)) else None). generalize (if e then skipn 2 b else b). intros d tr.
    cbv beta iota zeta delta [payload_unmarshal]. unfold tokens_unmarshal. destruct d as [|k r]; [reflexivity|]. rewrite tokens_differ.
    destruct (comes_upon_strange _ r); reflexivity.
  - replace (strange_packet e p) with false.
    2:{ clear -P NI. destruct p as [|a [|b r]]; [reflexivity|destruct a; reflexivity|]. destruct a; try reflexivity.
        destruct b; try reflexivity. exfalso. cbn in P. congruence. }
    destruct (Lookup std_registry id (List.length (packet_body p)) (mode_after e [id])) as [[t b]|] eqn:L.
    + rewrite !(UnmarshalCmd_found _ std_registry e p id t b P L). cbv zeta.
      assert (NT : t <> general_SetFIDTokenValues).
      { intros ->. destruct (id_type id _ (lookup_in _ _ _ _ _ _ L)) as [-> | ->]; auto. rewrite ?start_lookup in L. revert L. vm_compute. destruct e; discriminate. }
      destruct t; try reflexivity. now elim NT.
    + now rewrite !(UnmarshalCmd_unknown _ std_registry e p id P L).
Qed.
