(** What of a trace file matters. *)
From Coq Require Import ZifyBool ZifyNat ZifyN Lia.
From Verif Require Import Base BaseFacts GoTypes Types Payload Lingo Command Handlers SpecHandlers SpecProtocol Packet SpecPacket Hid SpecHid
  HidThms Trace SpecTrace TraceFacts TraceThms TraceSessions Server SpecServer ServerFacts ServerThms SessionThms SpecWire ProtocolProps
  Send SpecSend SendThms RetryThms SpecEdit.
#[local] Opaque std_registry requests.

(** ** Lines *)

Lemma text_exists content : exists lines, is_text content lines.
Proof.
  assert (G : forall content cur, ~ In x0a cur -> exists lines, is_text (cur ++ content) lines).
  { induction content0 as [|b c IH]; intros cur N.
    - destruct cur as [|x cur]; [exists []; split; [constructor|left; reflexivity]|].
      exists [x :: cur]. split; [repeat constructor; exact N|]. right. exists [], (x :: cur). rewrite app_nil_r.
      split; [reflexivity|]. split; [discriminate|reflexivity].
    - destruct (byte_eqb b x0a) eqn:E.
      + apply byte_eqb_eq in E. subst b. destruct (IH [] (fun H => H)) as (ls & NL & T). exists (cur :: ls). cbn [app] in T.
        split; [now constructor|]. destruct T as [T|(pre & last & -> & NE & T)].
        * left. unfold file_of. cbn [map List.concat]. rewrite <- app_assoc. cbn [app]. do 2 f_equal. exact T.
        * right. exists (cur :: pre), last. split; [reflexivity|]. split; [exact NE|]. unfold file_of. cbn [map List.concat].
          rewrite <- !app_assoc. cbn [app]. do 2 f_equal. exact T.
      + apply byte_eqb_neq in E. destruct (IH (cur ++ [b])) as (ls & T).
        { intros H. apply in_app_or in H as [H|[H|[]]]; [now apply N|congruence]. }
        exists ls. rewrite <- app_assoc in T. exact T. }
  exact (G content [] (fun H => H)).
Qed.

Lemma text_reader content lines fin : is_text content lines -> Forall (fun l => (len l <= 65535)%N) lines ->
  NewReader content fin = mkReader (map dropCR lines) fin None 0.
Proof.
  intros [NL T] SH. unfold NewReader.
  assert (R : raw_lines [] content = lines).
  { destruct T as [->|(pre & last & -> & NE & ->)].
    - rewrite <- (app_nil_r (file_of lines)), raw_lines_file by exact NL. apply app_nil_r.
    - apply Forall_app in NL as [N1 N2]. rewrite raw_lines_file by exact N1. f_equal. rewrite raw_lines_tail by now inversion N2.
      cbn [app]. destruct last; [congruence|reflexivity]. }
  rewrite R, (scan_short lines fin SH). reflexivity.
Qed.

Lemma incoming_exists lines : exists xs, incoming lines xs.
Proof.
  induction lines as [|l ls (xs & IH)]; [exists []; constructor|].
  pose proof (dropCR_dropped l) as D. destruct (dropCR l) as [|b t] eqn:E; [exists xs; now apply inc_blank|].
  destruct (unmarshal_cases (mkMsg 0 0 []) (b :: t)) as [(d & data & U & A)|(m & e & U & NA)].
  - assert (DD : d = 0%N \/ d = 1%N).
    { destruct A as (_ & c & x & body & w & digits & tail & _ & [[-> _]|[-> _]] & _); auto. }
    destruct DD as [-> | ->]; [exists (Some data :: xs); now apply inc_in with (b :: t)|exists xs; now apply inc_out with (b :: t) data].
  - exists (None :: xs). apply inc_none with (b :: t); auto. discriminate.
Qed.

Lemma accepts_full t d data : accepts t d data -> t <> [].
Proof. intros [L _] ->. cbn [List.length] in L. lia. Qed.

Lemma incoming_fun lines xs : incoming lines xs -> forall xs', incoming lines xs' -> xs = xs'.
Proof.
  induction 1 as [|l ls xs D _ IH|l t data ls xs D A _ IH|l t data ls xs D A _ IH|l t ls xs D N NA _ IH]; intros xs' Q;
    inversion Q as [|l' ls' xs2 D2 H2|l' t2 data2 ls' xs2 D2 A2 H2|l' t2 data2 ls' xs2 D2 A2 H2|l' t2 ls' xs2 D2 N2 NA2 H2]; subst;
    try reflexivity; try (pose proof (dropped_unique _ _ _ D D2); subst);
    repeat match goal with
    | A : accepts [] _ _ |- _ => now destruct (accepts_full _ _ _ A)
    | N : ?t <> ?t |- _ => now elim N
    | A : accepts ?t _ _, NA : forall d data, ~ accepts ?t d data |- _ => now elim (NA _ _ A)
    | A : accepts ?t 1 _, B : accepts ?t 0 _ |- _ => destruct (accepts_unique _ _ _ _ _ A B); discriminate
    end; try (f_equal; now apply IH); try (now apply IH).
  destruct (accepts_unique _ _ _ _ _ A A2) as [_ ->]. f_equal. now apply IH.
Qed.

Lemma incoming_app a xs : incoming a xs -> forall b ys, incoming b ys -> incoming (a ++ b) (xs ++ ys).
Proof.
  induction 1; intros b ys Q; cbn [app]; [exact Q|apply inc_blank|eapply inc_out|eapply inc_in|eapply inc_none]; eauto.
Qed.

(** ** Reading *)

Lemma unmarshal_not_end m t m' e : Msg_UnmarshalText m t = (m', Some e) -> e <> EOF.
Proof.
  unfold Msg_UnmarshalText. destruct (Nat.ltb _ 4); [intros H; injection H as _ <-; discriminate|].
  destruct (Dir_UnmarshalText (msg_Dir m) (firstn 1 t)) as [d [e0|]] eqn:D.
  - intros H. injection H as _ <-. unfold Dir_UnmarshalText in D. destruct (firstn 1 t) as [|c [|? ?]]; try (injection D as _ <-; discriminate).
    destruct (byte_eqb c LT); [discriminate|]. destruct (byte_eqb c GT); [discriminate|]. injection D as _ <-. discriminate.
  - destruct (Sscanf_x _); intros H; [discriminate|]. injection H as _ <-. discriminate.
Qed.

Definition at_line (lines : list bytes) (i : N) : Reader := mkReader (map dropCR lines) EOF None i.

Lemma readmsg_blank ls fin i m : ReadMsg (mkReader ([] :: ls) fin None i) m = ReadMsg (mkReader ls fin None i) m.
Proof. reflexivity. Qed.

Lemma loop_more fuel : forall dir r n x, dir_Read_loop fuel dir r n = Some x -> forall k, dir_Read_loop (fuel + k) dir r n = Some x.
Proof.
  induction fuel as [|fuel IH]; intros dir r n x H k; [discriminate|]. cbn [Nat.add dir_Read_loop] in *.
  destruct (ReadMsg r (mkMsg 0 0 [])) as [[r' m] [e|]]; [exact H|].
  destruct (negb _); [now apply IH|exact H].
Qed.

(** The next read of a replay. *)
Definition next_read (xs : list (option bytes)) (r : io (Reader * raw_read)) : Prop :=
  match xs with
  | [] => exists r', r = done (r', ([], Some EOF))
  | Some d :: xs' => exists ls i, r = done (at_line ls i, (firstn 1024 d, None)) /\ incoming ls xs'
  | None :: xs' => exists ls i e, r = done (at_line ls i, ([], Some e)) /\ e <> EOF /\ incoming ls xs'
  end.

Lemma replay_next ls xs : incoming ls xs -> forall i, next_read xs (replay_read (at_line ls i)).
Proof.
  assert (G : incoming ls xs -> forall i fuel, List.length ls < fuel ->
     next_read xs (match dir_Read_loop fuel DirIn (at_line ls i) maxRawSize with None => None | Some x => done x end)).
  { intros H. induction H as [|l ls xs D _ IH|l t data ls xs D A _ IH|l t data ls xs D A I _|l t ls xs D N NA I _];
      intros i [|fuel] L; cbn [List.length] in L; try lia.
    - cbn [dir_Read_loop]. eexists. reflexivity.
    - pose proof (dropped_unique _ _ _ (dropCR_dropped l) D) as E. specialize (IH i (Datatypes.S fuel) ltac:(lia)).
      unfold at_line in *. cbn [map]. rewrite E. exact IH.
    - pose proof (dropped_unique _ _ _ (dropCR_dropped l) D) as E. unfold at_line in *. cbn [map]. rewrite E.
      cbn [dir_Read_loop]. unfold ReadMsg. cbn [rd_err rd_tokens rd_fin rd_ts ReadMsg_loop].
      pose proof (accepts_full _ _ _ A) as NE. destruct t as [|b t]; [congruence|].
      apply (unmarshal_ok (mkMsg 0 0 [])) in A. cbn [msg_TS] in A. rewrite A. cbn [msg_Dir msg_Data]. cbn [N.eqb negb DirIn].
      exact (IH _ fuel ltac:(lia)).
    - pose proof (dropped_unique _ _ _ (dropCR_dropped l) D) as E. unfold at_line in *. cbn [map]. rewrite E.
      cbn [dir_Read_loop]. unfold ReadMsg. cbn [rd_err rd_tokens rd_fin rd_ts ReadMsg_loop].
      pose proof (accepts_full _ _ _ A) as NE. destruct t as [|b t]; [congruence|].
      apply (unmarshal_ok (mkMsg 0 0 [])) in A. cbn [msg_TS] in A. rewrite A. cbn [msg_Dir msg_Data]. cbn [N.eqb negb DirIn].
      eexists _, _. split; [reflexivity|exact I].
    - pose proof (dropped_unique _ _ _ (dropCR_dropped l) D) as E. unfold at_line in *. cbn [map]. rewrite E.
      cbn [dir_Read_loop]. unfold ReadMsg. cbn [rd_err rd_tokens rd_fin rd_ts ReadMsg_loop].
      destruct t as [|b t]; [congruence|].
      destruct (unmarshal_cases (mkMsg 0 0 []) (b :: t)) as [(d & data & U & A)|(m & e & U & _)]; [now elim (NA _ _ A)|].
      rewrite U. eexists _, _, _. split; [reflexivity|]. split; [exact (unmarshal_not_end _ _ _ _ U)|exact I]. }
  intros H i. unfold replay_read, dir_Read. apply (G H). unfold at_line. cbn [rd_tokens]. rewrite map_length. lia.
Qed.

(** Two results of reading a frame that the server cannot tell apart. *)
Definition same_result (a b : bytes + goerr) : Prop :=
  match a, b with
  | inl f, inl g => f = g
  | inr e, inr e' => e = EOF <-> e' = EOF
  | _, _ => False
  end.

Lemma frame_incoming defs : forall fuel buf ls i xs o, incoming ls xs ->
  match ReadFrame_dev fuel defs replay_read buf (at_line ls i), ReadFrame_dev fuel defs wire_read buf (map as_read xs, o) with
  | None, None => True
  | Some Panic, Some Panic => True
  | Some (Ret (r, a)), Some (Ret (d, b)) =>
      same_result a b /\ (a = inr EOF \/ exists ls' i' xs', r = at_line ls' i' /\ d = (map as_read xs', o) /\ incoming ls' xs')
  | _, _ => False
  end.
Proof.
  induction fuel as [|fuel IH]; intros buf ls i xs o H; cbn [ReadFrame_dev]; [exact I|].
  pose proof (replay_next ls xs H i) as NX. destruct xs as [|[d|] xs]; cbn [next_read map as_read wire_read fst snd] in *.
  - destruct NX as (r' & ->). cbn [io_bind done ReadReport]. split; [split; reflexivity|]. now left.
  - destruct NX as (ls' & i' & -> & H'). cbn [io_bind done].
    assert (ST : forall r0 : bytes + goerr, same_result r0 r0
      /\ (r0 = inr EOF \/ exists ls0 i0 xs0, at_line ls' i' = at_line ls0 i0 /\ (map as_read xs, o) = (map as_read xs0, o) /\ incoming ls0 xs0)).
    { intros r0. split; [destruct r0; [reflexivity|split; auto]|]. right. exists ls', i', xs. auto. }
    destruct (ReadReport (firstn 1024 d, None)) as [report|er]; [|apply ST].
    destruct (Find defs _) as [def|er]; [|apply ST]. cbv zeta.
    destruct (Z.min _ _ <? 0)%Z; [exact I|].
    destruct (_ =? LinkControlDone)%N; [apply ST|].
    destruct (_ =? LinkControlMoreToFollow)%N; [exact (IH _ _ _ _ _ H')|].
    destruct (_ =? N.lor _ _)%N; [exact (IH _ _ _ _ _ H')|].
    destruct (_ =? LinkControlContinue)%N; [apply ST|exact (IH _ _ _ _ _ H')].
  - destruct NX as (ls' & i' & e & -> & NE & H'). cbn [io_bind done ReadReport]. split; [split; [contradiction|discriminate]|].
    right. exists ls', i', xs. auto.
Qed.

Section Replay.
  Context {S : Type} (rt : bool) (reg : registry) (clock : nat -> datetime) (g : DeviceGeneral S)
          (defs : list ReportDef) (spares : nat -> bytes) (U : usable defs).

  Lemma replies_alike fuel2 cs l o n r : forall m o0,
    match write_replies rt (hid_transport fuel2 defs spares replay_read discard) m cs (r, n),
          write_replies rt (hid_transport fuel2 defs spares wire_read wire_write) m cs ((l, o ++ o0), n) with
    | Some Panic, Some Panic => True
    | Some (Ret (m1, w1)), Some (Ret (m2, w2)) => m1 = m2 /\ w1 = (r, n) /\ exists o1, w2 = ((l, o ++ o1), n)
    | _, _ => False
    end.
  Proof.
    induction cs as [|c cs IH]; intros m o0; cbn [write_replies]; [split; [reflexivity|split; [reflexivity|eauto]]|].
    destruct (MarshalCmd rt m c) as [[m1 res]|]; cbn [io_bind]; [|exact I].
    destruct (WritePacket NewPacketWriter match res with Ok b => b | Err _ => [] end) as [f er].
    cbn [tp_WriteFrame hid_transport fst snd]. rewrite (write_discard defs r f U). cbn [io_bind done].
    destruct (wire_sent defs l (o ++ o0) f U) as (outs & -> & _). cbn [io_bind done]. rewrite <- app_assoc. apply IH.
  Qed.

  Lemma replay_served : forall fuel fuel2 st ls i xs n o, incoming ls xs ->
    served (processFrames_loop fuel rt reg clock g (hid_transport fuel2 defs spares replay_read discard) st (at_line ls i, n))
    = served (processFrames_loop fuel rt reg clock g (hid_transport fuel2 defs spares wire_read wire_write) st ((map as_read xs, o), n)).
  Proof.
    induction fuel as [|fuel IH]; intros fuel2 st ls i xs n o H; [reflexivity|].
    cbn [processFrames_loop tp_ReadFrame hid_transport fst snd].
    pose proof (frame_incoming defs fuel2 [] ls i xs o H) as F.
    destruct (ReadFrame_dev fuel2 defs replay_read [] (at_line ls i)) as [[[r a]|]|],
             (ReadFrame_dev fuel2 defs wire_read [] (map as_read xs, o)) as [[[d b]|]|]; try contradiction; try reflexivity.
    cbn [io_bind done]. destruct F as [SR F].
    assert (GO : a <> inr EOF -> exists ls' i' xs', r = at_line ls' i' /\ d = (map as_read xs', o) /\ incoming ls' xs').
    { intros NA. destruct F as [F|F]; [contradiction|exact F]. }
    destruct a as [f|e], b as [f'|e']; try contradiction.
    - cbn [same_result] in SR. subst f'. destruct (GO ltac:(discriminate)) as (ls' & i' & xs' & -> & -> & H').
      unfold process_frame.
      destruct (frame_packets rt reg (sv_mode st) _) as [[[m1 evs]|]|]; cbn [io_bind]; [|reflexivity..].
      destruct (handle_all reg clock g (inCmds evs) (sv_h st)) as [[h1 u]|]; cbn [io_bind]; [|reflexivity].
      pose proof (replies_alike fuel2 (outCmds (h_log (sv_h st)) (h_log h1)) (map as_read xs') o (Datatypes.S n) (at_line ls' i') m1 []) as W.
      rewrite app_nil_r in W.
      destruct (write_replies rt (hid_transport fuel2 defs spares replay_read discard) m1 _ _) as [[[m2 w2]|]|],
               (write_replies rt (hid_transport fuel2 defs spares wire_read wire_write) m1 _ _) as [[[m3 w3]|]|]; try contradiction; try reflexivity.
      destruct W as (<- & -> & o1 & ->). cbn [io_bind done]. now apply IH.
    - cbn [same_result] in SR. destruct e.
      + rewrite (proj1 SR eq_refl). reflexivity.
      + destruct (GO ltac:(discriminate)) as (ls' & i' & xs' & -> & -> & H').
        destruct e'; [discriminate (proj2 SR eq_refl)|now apply IH..].
      + destruct (GO ltac:(discriminate)) as (ls' & i' & xs' & -> & -> & H').
        destruct e'; [discriminate (proj2 SR eq_refl)|now apply IH..].
      + destruct (GO ltac:(discriminate)) as (ls' & i' & xs' & -> & -> & H').
        destruct e'; [discriminate (proj2 SR eq_refl)|now apply IH..].
  Qed.
End Replay.

(** ** Sending *)

Lemma send_incoming ls xs : incoming ls xs -> forall i, to_send_from (at_line ls i) (sent_of xs).
Proof.
  induction 1 as [|l ls xs D _ IH|l t data ls xs D A _ IH|l t data ls xs D A I IH|l t ls xs D N NA I _]; intros i.
  - exists 1. cbn. constructor.
  - pose proof (dropped_unique _ _ _ (dropCR_dropped l) D) as E. destruct (IH i) as (k & K). exists k. unfold at_line in *. cbn [map].
    rewrite E, read_blank. exact K.
  - pose proof (dropped_unique _ _ _ (dropCR_dropped l) D) as E. pose proof (accepts_full _ _ _ A) as NE.
    destruct (IH ((i + 1) mod 2 ^ 64)%N) as (k & K). exists (Datatypes.S k). unfold at_line in *. cbn [map]. rewrite E, read_line by exact NE.
    apply (unmarshal_ok (mkMsg 0 0 [])) in A. rewrite A. apply send_other; [discriminate|exact K].
  - pose proof (dropped_unique _ _ _ (dropCR_dropped l) D) as E. pose proof (accepts_full _ _ _ A) as NE.
    destruct (IH ((i + 1) mod 2 ^ 64)%N) as (k & K). exists (Datatypes.S k). unfold at_line in *. cbn [map]. rewrite E, read_line by exact NE.
    apply (unmarshal_ok (mkMsg 0 0 [])) in A. rewrite A. cbn [sent_of].
    destruct (Nat.leb_spec 3 (List.length data)).
    + apply send_data; [reflexivity|assumption|exact K].
    + apply send_short; [reflexivity|assumption].
  - pose proof (dropped_unique _ _ _ (dropCR_dropped l) D) as E. exists 1. unfold at_line. cbn [map]. rewrite E, read_line by exact N.
    destruct (unmarshal_cases (mkMsg 0 0 []) t) as [(d & data & U & A)|(m & e & U & _)]; [now elim (NA _ _ A)|].
    rewrite U. constructor.
Qed.

(** ** Viewing *)

Lemma load_incoming ls xs : incoming ls xs -> In None xs -> forall i q fuel, List.length ls < fuel ->
  exists e, load_trace fuel (at_line ls i) q = done (inr e) /\ e <> EOF.
Proof.
  assert (STEP : forall fuel l t ls i q, dropCR l = t -> t <> [] -> load_trace (Datatypes.S fuel) (at_line (l :: ls) i) q
     = match Msg_UnmarshalText (mkMsg 0 0 []) t with
       | (_, Some EOF) => done (inl q)
       | (_, Some e) => done (inr e)
       | (m, None) => match Enqueue q (mkMsg (msg_Dir m) i (msg_Data m)) with
                      | (q', Ret _) => load_trace fuel (at_line ls ((i + 1) mod 2 ^ 64)) q'
                      | (_, Panic) => Some Panic
                      end
       end).
  { intros fuel l t ls0 i q E NE. cbn [load_trace]. unfold at_line. cbn [map]. rewrite E. unfold ReadMsg.
    cbn [rd_err rd_tokens rd_fin rd_ts ReadMsg_loop]. destruct t as [|b t]; [congruence|].
    change uint_max1 with (2 ^ 64)%N. destruct (Msg_UnmarshalText (mkMsg 0 0 []) (b :: t)) as [m' [[]|]]; reflexivity. }
  induction 1 as [|l ls xs D _ IH|l t data ls xs D A _ IH|l t data ls xs D A I IH|l t ls xs D N NA I _]; intros NX i q fuel L;
    cbn [List.length] in L; [destruct NX|..]; try (pose proof (dropped_unique _ _ _ (dropCR_dropped l) D) as E).
  - destruct fuel as [|fuel]; [lia|]. unfold at_line. cbn [map]. rewrite E.
    change (load_trace (Datatypes.S fuel) (mkReader ([] :: map dropCR ls) EOF None i) q) with (load_trace (Datatypes.S fuel) (at_line ls i) q).
    apply IH; [exact NX|lia].
  - destruct fuel as [|fuel]; [lia|]. rewrite (STEP _ _ _ _ _ _ E (accepts_full _ _ _ A)).
    apply (unmarshal_ok (mkMsg 0 0 [])) in A. rewrite A. cbn [msg_Dir msg_Data Enqueue N.eqb DirIn DirOut].
    apply IH; [exact NX|lia].
  - destruct NX as [NX|NX]; [discriminate|]. destruct fuel as [|fuel]; [lia|]. rewrite (STEP _ _ _ _ _ _ E (accepts_full _ _ _ A)).
    apply (unmarshal_ok (mkMsg 0 0 [])) in A. rewrite A. cbn [msg_Dir msg_Data Enqueue N.eqb DirIn DirOut].
    apply IH; [exact NX|lia].
  - destruct fuel as [|fuel]; [lia|]. rewrite (STEP _ _ _ _ _ _ E N).
    destruct (unmarshal_cases (mkMsg 0 0 []) t) as [(d & data & U & A)|(m & e & U & _)]; [now elim (NA _ _ A)|].
    rewrite U. pose proof (unmarshal_not_end _ _ _ _ U) as NE. exists e. split; [destruct e; [now elim NE|reflexivity..]|exact NE].
Qed.

Lemma view_incoming rt reg defs spares ls xs i : incoming ls xs -> In None xs ->
  exists e, dumpTrace rt reg defs spares (at_line ls i) = done (inr e) /\ e <> EOF.
Proof.
  intros I N. unfold dumpTrace.
  destruct (load_incoming ls xs I N i NewQueue (Datatypes.S (List.length (rd_tokens (at_line ls i))))) as (e & -> & NE).
  { unfold at_line. cbn [rd_tokens]. rewrite map_length. lia. }
  exists e. split; [reflexivity|exact NE].
Qed.

(** ** Frames with lines between them *)

Lemma noted_arrives defs spares rss xs : noted rss xs -> forall pss, Forall2 (sends defs) rss pss ->
  forall n, arrives defs spares n (map as_read xs) pss.
Proof.
  induction 1 as [|rss xs _ IH|rs rss xs _ IH]; intros pss F n.
  - inversion F; subst. apply arrives_end with []; [reflexivity|split; constructor].
  - cbn [map as_read]. change (([], Some (ErrMsg "no message")) :: map as_read xs) with ([([], Some (ErrMsg "no message"))] ++ map as_read xs).
    eapply arrives_error with (rs := []) (x := inr (ErrMsg "no message")); [reflexivity|split; constructor|discriminate|]. now apply IH.
  - inversion F as [|rs' ps rss' pss' S F']; subst. destruct S as (pre & last & f & -> & P & LV & E & L & FR & ST).
    rewrite map_app.
    assert (M : map as_read (map (fun r => Some (report_bytes r)) (pre ++ [last])) = map (fun r => (report_bytes r, None)) (pre ++ [last])).
    { rewrite map_map. apply map_ext_in. intros r I. cbn [as_read]. rewrite Forall_forall in L. specialize (L r I).
      f_equal. apply firstn_all2. cbn [report_bytes List.length]. lia. }
    rewrite M. eapply arrives_frame; [now apply sent_reports|exact P|exact LV|exact E|exact FR|now apply stream_holds|now apply IH].
Qed.
