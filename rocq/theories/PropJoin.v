(** Property C112: joined trace files. *)
From Coq Require Import ZifyBool ZifyNat ZifyN Lia.
From Verif Require Import Base BaseFacts GoTypes Types Payload Lingo Command SpecPayload SpecCommand Handlers SpecHandlers HandlersThms
  SpecProtocol Packet SpecPacket Hid SpecHid HidThms Trace SpecTrace TraceThms Server SpecServer SpecWire ServerThms ProtocolProps PropProtocol
  Send SpecSend SendThms RetryThms PropRetry SpecView ViewThms SpecEdit EditThms PropEdit SpecRenew RenewThms PropRenew SpecJoin JoinThms.
Notation fresh := SpecWire.fresh.
#[local] Opaque std_registry requests.

(** What the view command prints of a file. *)
Definition viewed (rt : bool) (defs : list ReportDef) (spares : nat -> bytes) (content : bytes) : io (list view_entry + goerr) :=
  printed (dumpTrace rt std_registry defs spares (NewReader content EOF)).

(** A file, in lines, that ends in a newline; and one that may not. *)
Definition file_in_lines (content : bytes) (lines : list bytes) : Prop :=
  is_text content lines /\ Forall (fun l => (len l <= 65535)%N) lines.

(** The first file is printed, its messages end no frame in the middle, and it leaves transaction numbers
    off.  Then of the files one behind the other the viewer prints what it prints of the first and then
    what it prints of the second alone; it crashes or refuses the joined file just as the second. *)
Theorem C112_view rt defs spares a la b lb ma ea :
  Forall (fun d => (1 <= def_Len d)%Z) defs -> file_in_lines a la -> a = file_of la -> file_in_lines b lb ->
  trace_of a EOF ma -> whole defs ma -> viewed rt defs spares a = done (inl ea) -> numbers_after false (packets_in ea) = false ->
  viewed rt defs spares (a ++ b) = behind ea (viewed rt defs (fun i => spares (List.length ea + i)) b).
Proof. intros U [TA LA] EA [TB LB] T W V M. exact (view_join a b la lb TA EA TB LA LB rt defs spares U ma ea T W V M). Qed.
Print Assumptions C112_view.

(** Whether the first file leaves numbers on does not matter if the second begins with an identification. *)
Theorem C112_view_anew rt defs spares a la b lb ma ea eb :
  Forall (fun d => (1 <= def_Len d)%Z) defs -> file_in_lines a la -> a = file_of la -> file_in_lines b lb ->
  trace_of a EOF ma -> whole defs ma -> viewed rt defs spares a = done (inl ea) ->
  viewed rt defs (fun i => spares (List.length ea + i)) b = done (inl eb) -> begins_anew (packets_in eb) ->
  viewed rt defs spares (a ++ b) = done (inl (ea ++ eb)).
Proof. intros U [TA LA] EA [TB LB] T W V VB A. exact (view_join_anew a b la lb TA EA TB LA LB rt defs spares U ma ea eb T W V VB A). Qed.
Print Assumptions C112_view_anew.

(** If the first file is refused, so is the joined file, with the same error.  If it crashes the viewer, so
    does the joined file, unless the second file is refused, which is then found out first. *)
Theorem C112_view_bad rt defs spares sp a la b lb :
  Forall (fun d => (1 <= def_Len d)%Z) defs -> file_in_lines a la -> a = file_of la -> file_in_lines b lb ->
  (forall e, viewed rt defs spares a = done (inr e) -> viewed rt defs spares (a ++ b) = done (inr e))
  /\ (viewed rt defs spares a = Some Panic ->
      (exists e, viewed rt defs sp b = done (inr e) /\ viewed rt defs spares (a ++ b) = done (inr e))
      \/ (forall e, viewed rt defs sp b <> done (inr e)) /\ viewed rt defs spares (a ++ b) = Some Panic).
Proof.
  intros U [TA LA] EA [TB LB]. split.
  - intros e. exact (view_join_bad a b la lb TA EA TB LA LB rt defs spares U e).
  - exact (view_join_crash a b la lb TA EA TB LA LB rt defs spares U sp).
Qed.
Print Assumptions C112_view_bad.

(** The send command sends of joined files what it sends of the first and then what it sends of the second,
    if every incoming message of the first is one that can be sent; else only what it sends of the first. *)
Theorem C112_send a la xa b lb xb :
  file_in_lines a la -> a = file_of la -> file_in_lines b lb -> incoming la xa -> incoming lb xb ->
  (Forall (fun x => exists d, x = Some d /\ 3 <= List.length d) xa /\ sendable_of (a ++ b) EOF (sent_of xa ++ sent_of xb))
  \/ (~ Forall (fun x => exists d, x = Some d /\ 3 <= List.length d) xa /\ sendable_of (a ++ b) EOF (sent_of xa)).
Proof.
  intros [TA LA] EA [TB LB] IA IB. destruct (C108_join a la xa b lb xb TA EA IA TB IB) as [T I].
  assert (L : Forall (fun l => (len l <= 65535)%N) (la ++ lb)) by now apply Forall_app.
  pose proof (C108_send _ _ _ T L I) as S.
  assert (D : Forall (fun x => exists d, x = Some d /\ 3 <= List.length d) xa \/ ~ Forall (fun x => exists d, x = Some d /\ 3 <= List.length d) xa).
  { clear. induction xa as [|x xs IH]; [left; constructor|]. destruct x as [d|]; [|right; intros F; inversion F as [|? ? (d & E & _)]; discriminate].
    destruct (Compare_dec.le_dec 3 (List.length d)) as [Q|Q].
    - destruct IH as [IH|IH]; [left; constructor; eauto|right; intros F; inversion F; auto].
    - right. intros F. inversion F as [|? ? (d' & E & X)]; subst. injection E as <-. auto. }
  destruct D as [D|D]; [left|right]; (split; [exact D|]).
  - now rewrite <- sent_join.
  - now rewrite <- (sent_cut xa xb).
Qed.
Print Assumptions C112_send.

(** The replay of a file. *)
Definition replayed (rt : bool) (clock : nat -> datetime) (defs : list ReportDef) (spares : nat -> bytes) (fuel : nat) (content : bytes)
  : io (server DevGeneral) :=
  SpecEdit.served (processFrames fuel rt std_registry clock DevGeneral_device (hid_transport fuel defs spares replay_read discard) h0 (NewReader content EOF, 0)).

Lemma as_reads rss pss defs : Forall2 (sends defs) rss pss ->
  map as_read (map (fun r => Some (report_bytes r)) (List.concat rss)) = reads_of rss.
Proof.
  unfold reads_of. rewrite map_map. intros F. apply map_ext_in. intros r I. cbn [as_read]. f_equal. apply firstn_all2.
  apply in_concat in I as (rs & IN & I). revert IN. induction F as [|rs' ps rss pss S F IH]; intros IN; [destruct IN|].
  destruct IN as [-> |IN]; [|now apply IH]. destruct S as (pre & last & f & -> & _ & _ & _ & L & _). rewrite Forall_forall in L. specialize (L r I).
  cbn [report_bytes List.length]. lia.
Qed.

Lemma as_read_not_end xs : Forall (fun x => ReadReport x <> inr EOF) (map as_read xs).
Proof.
  apply Forall_map, Forall_forall. intros [d|] _; [|discriminate]. cbn [as_read]. exact (report_not_eof (mkMsg 0 0 (firstn 1024 d))).
Qed.

Lemma replayed_served rt clock defs spares fuel content lines xs : usable defs -> file_in_lines content lines -> incoming lines xs ->
  replayed rt clock defs spares fuel content = SpecEdit.served (PropRenew.served rt clock defs spares fuel (map as_read xs)).
Proof. intros U [T L] I. exact (C108_replay rt std_registry clock DevGeneral_device defs spares h0 fuel fuel content lines xs U T L I). Qed.

(** The replay of the files one behind the other, the second of which begins with the start of
    identification and the leaving of the extended mode: after the first file, which may hold anything, the
    replay goes on as if it were the replay of the second file alone, and ends in the same memory, or
    crashes as that does; but for the times of day. *)
Theorem C112_replay rt clock defs spares a la xa b lb r1 r2 rss t t' pss st1 fuel :
  usable defs -> file_in_lines a la -> a = file_of la -> file_in_lines b lb ->
  incoming la xa -> incoming lb (map (fun r => Some (report_bytes r)) (List.concat (r1 :: r2 :: rss))) ->
  Forall2 (sends defs) (r1 :: r2 :: rss) ([start t] :: [leave t'] :: pss) -> Exists starts r1 -> List.length t = 2 -> List.length t' = 2 ->
  List.length xa + List.length (List.concat (r1 :: r2 :: rss)) < fuel ->
  replayed rt clock defs spares fuel a = done st1 ->
  let k := readings (memory_of st1) in
  replayed rt clock defs spares fuel (a ++ b) = Some Panic /\ (forall spares, replayed rt (later k clock) defs spares fuel b = Some Panic)
  \/ exists st m, replayed rt clock defs spares fuel (a ++ b) = done st /\ memory_of st = shift k m
       /\ forall spares, exists st', replayed rt (later k clock) defs spares fuel b = done st' /\ memory_of st' = m.
Proof.
  intros U FA EA FB IA IB S X T T' L R k. destruct (C108_join a la xa b lb _ (proj1 FA) EA IA (proj1 FB) IB) as [TJ IJ].
  assert (FJ : file_in_lines (a ++ b) (la ++ lb)) by (split; [exact TJ|]; apply Forall_app; split; [exact (proj2 FA)|exact (proj2 FB)]).
  rewrite (replayed_served _ _ _ _ _ _ _ _ U FA IA) in R. rewrite (replayed_served _ _ _ _ _ _ _ _ U FJ IJ), map_app, (as_reads _ _ _ S).
  assert (RB : forall spares, replayed rt (later k clock) defs spares fuel b = SpecEdit.served (session rt (later k clock) defs spares fuel (r1 :: r2 :: rss))).
  { intros sp. rewrite (replayed_served _ _ _ _ _ _ _ _ U FB IB), (as_reads _ _ _ S). reflexivity. }
  destruct (PropRenew.served rt clock defs spares fuel (map as_read xa)) as [[[st0 [[rest o1] n]]|]|] eqn:E; try discriminate R.
  injection R as ->.
  assert (LL : List.length (map as_read xa ++ reads_of (r1 :: r2 :: rss)) < fuel) by (unfold reads_of; rewrite app_length, !map_length; exact L).
  assert (EW : ends_with (PropRenew.served rt clock defs spares fuel (map as_read xa)) (memory_of st1) o1) by (exists st1, rest, n; auto).
  destruct (C111_renewed rt clock defs spares (map as_read xa) (memory_of st1) o1 r1 r2 rss t t' pss fuel U (as_read_not_end xa) S X T T' LL EW)
    as [[P1 P2]|(m & o & o' & o2 & _ & _ & (st & rest' & n' & E1 & M1) & E2)].
  - left. rewrite P1. split; [reflexivity|]. intros sp. rewrite RB. unfold k. rewrite P2. reflexivity.
  - right. exists st, m. rewrite E1. split; [reflexivity|]. split; [exact M1|]. intros sp. destruct (E2 sp) as (st' & rest2 & n2 & E3 & M3).
    exists st'. rewrite RB. unfold k. rewrite E3. auto.
Qed.
Print Assumptions C112_replay.

#[local] Transparent std_registry requests.

(** A request for the name; a start of identification with the request in two parts. *)
Definition name_lines : list bytes := map line_text ["< 09 00 00 55 02 00 07 F7"; "> 09 00 00 55 02 00 07 F7"]%string.
Definition start_lines : list bytes := map line_text ["< 09 02 00 55 04 00 38"; "< 09 01 00 01 C3"]%string.
Definition view_of (content : bytes) : io (list view_entry + goerr) := viewed true DefaultReportDefs (fun _ => []) content.

Lemma name_trace : trace_of (file_of name_lines) EOF
  [mkMsg 0 0 [x09; x00; x00; x55; x02; x00; x07; xf7]; mkMsg 1 1 [x09; x00; x00; x55; x02; x00; x07; xf7]].
Proof.
  intros k. replace (NewReader (file_of name_lines) EOF) with (mkReader name_lines EOF None 0) by (vm_compute; reflexivity).
  unfold name_lines. cbn [map List.length Nat.add]. rewrite read_line by discriminate.
  match goal with |- context [Msg_UnmarshalText ?m ?t] => replace (Msg_UnmarshalText m t) with (mkMsg 0 0 [x09; x00; x00; x55; x02; x00; x07; xf7], @None goerr) by (vm_compute; reflexivity) end.
  rewrite read_line by discriminate.
  match goal with |- context [Msg_UnmarshalText ?m ?t] => replace (Msg_UnmarshalText m t) with (mkMsg 1 0 [x09; x00; x00; x55; x02; x00; x07; xf7], @None goerr) by (vm_compute; reflexivity) end.
  rewrite read_end. reflexivity.
Qed.

Lemma lines_file lines : forallb (fun l => forallb (fun b => negb (byte_eqb b x0a)) l && (len l <=? 65535)%N) lines = true -> file_in_lines (file_of lines) lines.
Proof.
  intros F. rewrite forallb_forall in F. split; [split; [|left; reflexivity]|]; apply Forall_forall; intros l I; specialize (F l I);
    apply Bool.andb_true_iff in F as [F G]; [|now apply N.leb_le].
  intros N. rewrite forallb_forall in F. specialize (F _ N). discriminate F.
Qed.

Example C112_case :
  Forall (fun d => (1 <= def_Len d)%Z) DefaultReportDefs
  /\ file_in_lines (file_of name_lines) name_lines /\ file_in_lines (file_of start_lines) start_lines
  /\ (exists ma, trace_of (file_of name_lines) EOF ma /\ whole DefaultReportDefs ma)
  /\ exists e1 e2 e3, view_of (file_of name_lines) = done (inl [e1; e2]) /\ numbers_after false (packets_in [e1; e2]) = false
       /\ view_of (file_of start_lines) = done (inl [e3]) /\ begins_anew (packets_in [e3]) /\ packets_in [e3] = [[x00; x38; x00; x01]]
       /\ view_of (file_of name_lines ++ file_of start_lines) = done (inl [e1; e2; e3]).
Proof.
  split; [repeat (apply Forall_cons; [vm_compute; discriminate|]); apply Forall_nil|].
  split; [apply lines_file; vm_compute; reflexivity|]. split; [apply lines_file; vm_compute; reflexivity|]. split.
  { eexists. split; [exact name_trace|]. intros d pre m E. unfold of_dir in E. cbn [filter msg_Dir] in E.
    destruct (0 =? d)%N eqn:Z, (1 =? d)%N eqn:O; [apply N.eqb_eq in Z, O; lia| | |now destruct pre];
      (destruct pre as [|? [|? ?]]; [injection E as <-|discriminate|discriminate]); left; left; reflexivity. }
  do 3 eexists. split; [vm_compute; reflexivity|]. split; [vm_compute; reflexivity|]. split; [vm_compute; reflexivity|].
  split; [vm_compute; eauto 8|]. split; [vm_compute; reflexivity|]. vm_compute. reflexivity.
Qed.

(** Finding: if the first file leaves numbers on and the second does not begin anew, its packets are shown
    otherwise than alone. *)
Definition reply_lines : list bytes := map line_text ["> 09 00 00 55 05 00 08 69 50 00 3A"]%string.
Theorem C112_numbers_refuted : exists e1 e2 e2',
  view_of (file_of start_lines) = done (inl [e1]) /\ view_of (file_of reply_lines) = done (inl [e2])
  /\ view_of (file_of start_lines ++ file_of reply_lines) = done (inl [e1; e2']) /\ e2 <> e2'.
Proof.
  do 3 eexists. split; [vm_compute; reflexivity|]. split; [vm_compute; reflexivity|]. split; [vm_compute; reflexivity|]. vm_compute. discriminate.
Qed.
Print Assumptions C112_numbers_refuted.

(** Finding: if the first file lacks its last newline, as a file broken off in writing may, its last message
    and the first of the second run together, which is not noticed: the second is lost. *)
Definition no_newline (lines : list bytes) : bytes := file_of (removelast lines) ++ last lines [].
Theorem C112_newline_refuted : exists e1 e2,
  view_of (no_newline (removelast name_lines)) = done (inl [e1]) /\ view_of (file_of (removelast name_lines)) = done (inl [e1])
  /\ view_of (file_of (removelast name_lines) ++ file_of name_lines) = done (inl [e1; e1; e2])
  /\ view_of (no_newline (removelast name_lines) ++ file_of name_lines) = done (inl [e1; e2]).
Proof. do 2 eexists. repeat split; vm_compute; reflexivity. Qed.
Print Assumptions C112_newline_refuted.

(** A file that enters the extended mode with numbers on, and breaks off within a frame; one with a new start
    and a request for the name. *)
Definition ended_lines : list bytes :=
  map line_text ["# a comment"; "< 09 00 00 55 04 00 38 00 01 C3 00"; "< 09 00 00 55 04 00 05 00 02 F5 00"; "< 09 02 55 04 00"]%string.
Definition anew_lines : list bytes :=
  map line_text ["< 09 00 00 55 04 00 38 00 01 C3 00"; "< 09 00 00 55 04 00 06 00 02 F4 00"; "< 09 00 00 55 04 00 07 00 03 F2 00"]%string.
Definition anew_reports : list (list Report) := [request_of (start [x00; x01]); request_of (leave [x00; x02]); request_of [x00; x07; x00; x03]].
Definition replay_at (k : nat) (content : bytes) : io memory :=
  go st <- replayed true (later k clock_ticking) DefaultReportDefs (fun _ => []) 20 content; done (memory_of st).

Example C112_replay_case :
  file_in_lines (file_of ended_lines) ended_lines /\ file_in_lines (file_of anew_lines) anew_lines
  /\ (exists xa, incoming ended_lines xa /\ List.length xa = 4)
  /\ incoming anew_lines (map (fun r => Some (report_bytes r)) (List.concat anew_reports))
  /\ Forall2 (sends DefaultReportDefs) anew_reports [[start [x00; x01]]; [leave [x00; x02]]; [[x00; x07; x00; x03]]]
  /\ Exists starts (request_of (start [x00; x01]))
  /\ replay_at 0 (file_of ended_lines) = done (mkMemory true true 0 0)
  /\ replay_at 0 (file_of anew_lines) = done (mkMemory true false 0 0)
  /\ replay_at 0 (file_of ended_lines ++ file_of anew_lines) = done (mkMemory true false 0 0).
Proof.
  assert (DR : forall l, dropCR l = l -> dropped l l) by (intros l E; rewrite <- E at 2; apply dropCR_dropped).
  split; [apply lines_file; vm_compute; reflexivity|]. split; [apply lines_file; vm_compute; reflexivity|]. split; [|split; [|split; [|split]]].
  - eexists. split.
    + unfold ended_lines. cbn [map]. eapply inc_none; [apply DR; reflexivity|discriminate| |].
      { intros d data A. apply (TraceFacts.unmarshal_ok (mkMsg 0 0 [])) in A. vm_compute in A. discriminate A. }
      repeat (eapply inc_in; [apply DR; reflexivity|apply (TraceFacts.unmarshal_ok (mkMsg 0 0 [])); reflexivity|]). constructor.
    + reflexivity.
  - unfold anew_lines. cbn [map]. change (map (fun r => Some (report_bytes r)) (List.concat anew_reports)) with
      [Some [x09; x00; x00; x55; x04; x00; x38; x00; x01; xc3; x00]; Some [x09; x00; x00; x55; x04; x00; x06; x00; x02; xf4; x00]; Some [x09; x00; x00; x55; x04; x00; x07; x00; x03; xf2; x00]].
    repeat (eapply inc_in; [apply DR; reflexivity|apply (TraceFacts.unmarshal_ok (mkMsg 0 0 [])); reflexivity|]). constructor.
  - repeat (apply Forall2_cons; [apply request_sent; [split; vm_compute; (reflexivity || discriminate || (split; discriminate))|vm_compute; lia]|]). apply Forall2_nil.
  - left. left. reflexivity.
  - split; [vm_compute; reflexivity|]. split; vm_compute; reflexivity.
Qed.
