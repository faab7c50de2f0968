(** Properties C89, C90: the commands of the tool. *)
From Coq Require Import Ascii Permutation Sorted ZifyBool ZifyNat ZifyN Lia.
From Verif Require Import Base Text SpecText GoTypes Types Payload Lingo Command SpecPayload SpecCommand Handlers SpecHandlers
  Packet SpecPacket Hid SpecHid HidThms Trace SpecTrace CommandThms TraceThms TraceSessions Server SpecServer ServerFacts ServerThms SessionThms SpecSession SpecView Log SpecLog LogThms AgreeThms SpecReadable ReadableThms
  Main SpecMain ToolThms MainThms PropServer PropView PropLog.
Local Open Scope string_scope.

(** ** C89 *)

(** No command changes a path that is not the device or the recording of a [serve] or [send]. *)
Theorem C89_untouched {D} (devs : io_rw D) os errText sdump certLog rt clock order spares fuel fuel2 inv w w' x q :
  run_tool devs os errText sdump certLog rt clock order spares fuel fuel2 inv w = done (w', x) ->
  ~ may_change inv q -> w_nodes w' q = w_nodes w q.
Proof. exact (untouched devs os errText sdump certLog rt clock order spares fuel fuel2 inv w w' x q). Qed.
Print Assumptions C89_untouched.

(** Every command line has all it needs or stops at a first problem, not both. *)
Theorem C89_problem_or_start {D} os (w : world D) inv :
  ((exists l pb, stops os w inv l pb) \/ starts os w inv)
  /\ ~ ((exists l pb, stops os w inv l pb) /\ starts os w inv).
Proof.
  split; [exact (stops_or_starts os (fun _ => "") inv w)|]. intros [(l & pb & A) B]. exact (starts_not_stops os inv w l pb B A).
Qed.
Print Assumptions C89_problem_or_start.

(** Stopped by a problem, the process exits with code 1 having told the user, and has changed
    nothing: no file was made and the device was not used. *)
Theorem C89_stops {D} (devs : io_rw D) os errText sdump certLog rt clock order spares fuel fuel2 inv w l pb :
  stops os w inv l pb ->
  exists w', run_tool devs os errText sdump certLog rt clock order spares fuel fuel2 inv w = done (w', Exited 1)
    /\ (forall q, w_nodes w' q = w_nodes w q)
    /\ w_stdout w' = (w_stdout w ++ l ++ [told_stdout errText (iv_cmd inv) pb])%list
    /\ w_stderr w' = w_stderr w ++ told_stderr errText pb.
Proof.
  intros H. eexists. split; [exact (stops_stopped devs os errText sdump certLog rt clock order spares fuel fuel2 inv w l pb H)|].
  repeat split.
Qed.
Print Assumptions C89_stops.

(** [lingos] lists every command there is once, by increasing id, with the type of its payload,
    whatever [order] the map of commands is walked in. *)
Theorem C89_lingos {D} (devs : io_rw D) os errText sdump certLog rt clock order spares fuel fuel2 inv w :
  iv_cmd inv = Lingos -> NoDup order -> (forall id, In id order <-> exists t, In (id, t) std_registry) ->
  exists w' ids lines, run_tool devs os errText sdump certLog rt clock order spares fuel fuel2 inv w = done (w', Exited 0)
    /\ (forall q, w_nodes w' q = w_nodes w q) /\ w_stderr w' = w_stderr w
    /\ w_stdout w' = (w_stdout w ++ [Printed ("Registered lingos:" ++ nl); Printed (fold_right append "" lines ++ nl)])%list
    /\ (forall id, In id ids <-> exists t, In (id, t) std_registry) /\ StronglySorted N.lt ids
    /\ Forall2 (listing_line std_registry) ids lines.
Proof.
  intros C ND A. destruct (CommandProps.dump_listing order std_registry ND (fun id => proj1 (A id))) as (ids & lines & P & SS & F & E).
  eexists _, ids, lines. unfold run_tool. rewrite C. split; [reflexivity|]. split; [reflexivity|]. split; [reflexivity|].
  split; [rewrite E; reflexivity|]. split; [|split; [exact SS|exact F]].
  intros id. rewrite <- A. split; apply Permutation_in; [symmetry|]; exact P.
Qed.
Print Assumptions C89_lingos.

Example C89_lingos_case :
  let order := nodup N.eq_dec (map fst std_registry) in
  NoDup order /\ (forall id, In id order <-> exists t, In (id, t) std_registry) /\ List.length order = 191.
Proof.
  cbv zeta. split; [apply NoDup_nodup|]. split; [|vm_compute; reflexivity].
  intros id. rewrite nodup_In, in_map_iff. split.
  - intros ([i t] & <- & H). exists t. exact H.
  - intros (t & H). exists (id, t). split; [reflexivity|exact H].
Qed.

(** Given a device, [serve] answers on it until io.EOF with the table of the command line, whether
    or not it records; logs this; and exits with code 0. *)
Theorem C89_serve {D} (devs : io_rw D) os errText sdump certLog rt clock order spares fuel fuel2 inv w w' x p d :
  honest devs -> iv_cmd inv = Serve -> device_at os w (iv_args inv) p d -> recording_at os (iv_trace inv) ->
  run_tool devs os errText sdump certLog rt clock order spares fuel fuel2 inv w = done (w', x) ->
  x = Exited 0 /\ w_stderr w' = w_stderr w
  /\ exists l d' st n,
       transcript errText sdump certLog rt clock (hid_transport fuel2 (table (iv_legacy inv)) spares (plain_read devs) (plain_write devs))
         start (d, 0) l st (d', n)
       /\ w_stdout w' = (w_stdout w ++ device_opened p :: recording_opened (iv_trace inv) ++ map Logged l)%list
       /\ w_nodes w' p = Some (CharDevice d').
Proof.
  intros HO C A R E. destruct (serve_run _ _ _ _ _ _ _ _ _ _ _ _ _ _ _ _ _ C A R E) as (X & Y & l & d' & O & N & _ & [(T & st & n & PL)|(T & PT & st & file & n & old & fin & PL & _)]).
  - split; [exact X|]. split; [exact Y|]. exists l, d', st, n. split; [|split; assumption]. exact (log_transcript _ _ _ _ _ _ _ _ _ _ _ _ sound_init PL).
  - split; [exact X|]. split; [exact Y|]. exists l, d', st, n. split; [|split; assumption].
    apply (log_transcript errText sdump certLog rt clock _ fuel); [exact sound_init|].
    exact (proj1 (serve_both devs HO _ (table_usable _) fuel2 spares errText sdump certLog rt std_registry clock fuel start d 0 [] st) _ _ _ _ PL).
Qed.
Print Assumptions C89_serve.

(** Given a trace, [replay] answers to the trace and discards its answers. *)
Theorem C89_replay {D} (devs : io_rw D) os errText sdump certLog rt clock order spares fuel fuel2 inv w w' x p n :
  iv_cmd inv = Replay -> trace_at os w (iv_args inv) 0 p n ->
  run_tool devs os errText sdump certLog rt clock order spares fuel fuel2 inv w = done (w', x) ->
  exists content fin l st r k, n = Regular content fin /\ x = Exited 0
    /\ transcript errText sdump certLog rt clock (hid_transport fuel2 (table (iv_legacy inv)) spares replay_read discard)
         start (NewReader content fin, 0) l st (r, k)
    /\ w_stdout w' = (w_stdout w ++ trace_opened p :: map Logged l)%list /\ w_stderr w' = w_stderr w.
Proof.
  intros C A E. destruct (replay_run _ _ _ _ _ _ _ _ _ _ _ _ _ _ _ _ _ C A E) as (content & fin & l & st & r & k & -> & -> & PL & ->).
  exists content, fin, l, st, r, k. repeat split. exact (log_transcript _ _ _ _ _ _ _ _ _ _ _ _ sound_init PL).
Qed.
Print Assumptions C89_replay.

(** Given a trace, [view] logs what it shows of it; if the trace cannot be read to its end, it logs
    the error only and exits with code 1. *)
Theorem C89_view {D} (devs : io_rw D) os errText sdump certLog rt clock order spares fuel fuel2 inv w w' x p n :
  iv_cmd inv = View -> trace_at os w (iv_args inv) 0 p n ->
  run_tool devs os errText sdump certLog rt clock order spares fuel fuel2 inv w = done (w', x) ->
  w_stderr w' = w_stderr w
  /\ exists content fin, n = Regular content fin
     /\ ((exists ms es l rest, trace_of content fin ms /\ shows rt (table (iv_legacy inv)) spares 0 false ms es rest
            /\ view_entries errText false es l
            /\ x = Exited 0 /\ w_stdout w' = (w_stdout w ++ trace_opened p :: map Logged l)%list)
         \/ (exists ms e, bad_trace content fin ms e
            /\ x = Exited 1 /\ w_stdout w' = (w_stdout w ++ [trace_opened p; Logged (mkRec 1 (errText e) [])])%list)).
Proof.
  intros C A E. destruct (view_run _ _ _ _ _ _ _ _ _ _ _ _ _ _ _ _ _ C A E) as (content & fin & -> & H).
  assert (L1 : Forall (fun d => (1 <= def_Len d)%Z) (table (iv_legacy inv))).
  { eapply Forall_impl; [|exact (table_small (iv_legacy inv))]. cbn beta. lia. }
  destruct H as [(q & es & DT & -> & ->)|(e & DT & -> & ->)].
  - split; [reflexivity|]. exists content, fin. split; [reflexivity|]. left.
    destruct (C86_viewer errText rt _ spares content fin q es L1 DT) as (ms & T & S & V & _).
    eexists ms, es, (dump_log errText es), _. repeat split; eassumption.
  - split; [reflexivity|]. exists content, fin. split; [reflexivity|]. right.
    destruct (C53_view rt (table (iv_legacy inv)) spares content fin L1) as [(q2 & es2 & ms & E2 & _)|[(ms & E2 & _)|(ms & e2 & E2 & F)]];
      rewrite DT in E2; try discriminate. injection E2 as <-. exists ms, e. repeat split; apply F.
Qed.
Print Assumptions C89_view.

(** Given a device and a trace, [send] starts on them; the file to record to is made if it does not
    exist, and nothing else is changed before. *)
Theorem C89_send {D} (devs : io_rw D) os errText sdump certLog rt clock order spares fuel fuel2 inv w w' x p d t n :
  iv_cmd inv = SendCmd -> device_at os w (iv_args inv) p d -> trace_at os w (iv_args inv) 1 t n -> recording_at os (iv_trace inv) ->
  run_tool devs os errText sdump certLog rt clock order spares fuel fuel2 inv w = done (w', x) ->
  exists content fin, n = Regular content fin
    /\ x = Sending p content fin (if iv_trace inv =? "" then None else Some (iv_trace inv))
    /\ w_stderr w' = w_stderr w
    /\ w_stdout w' = (w_stdout w ++ device_opened p :: trace_opened t :: recording_opened (iv_trace inv))%list
    /\ forall q, w_nodes w' q = w_nodes w q
                 \/ q = iv_trace inv /\ q <> "" /\ w_nodes w q = None /\ w_nodes w' q = Some (Regular [] EOF).
Proof. exact (send_run devs os errText sdump certLog rt clock order spares fuel fuel2 inv w w' x p d t n). Qed.
Print Assumptions C89_send.

(** An OS that lets everything be opened but /root/t, and a world with a device and two traces. *)
Definition os0 : os_errors :=
  mkOS (fun _ p => if p =? "/root/t" then Some (ErrMsg "open /root/t: permission denied") else None)
       (fun p => ErrMsg ("open " ++ p ++ ": no such file or directory")).
Definition world0 : world (list bytes) :=
  mkWorld (fun p => if p =? "/dev/iap0"
                    then Some (CharDevice [[x05; x02; x55; x02; x00; x07; xf7; x00; x00]; [x05; x01; x00; x00; x00; x00; x00; x00; x00]])
                    else if p =? "a.trace" then Some (Regular [x3c] EOF) else None) [] "".
Definition run0 inv (w : world (list bytes)) :=
  run_tool good_host os0 errText0 (fun _ => "") (fun _ => []) true clock0 [] (fun _ => []) 9 9 inv w.

Example C89_case :
  stops os0 world0 (mkInv false Serve [] "") [] (Missing "device path is missing")
  /\ stops os0 world0 (mkInv false View ["b.trace"] "") [] (Unopenable "b.trace" "could not open the trace file" (ErrMsg "open b.trace: no such file or directory"))
  /\ stops os0 world0 (mkInv true SendCmd ["/dev/iap0"; "a.trace"] "/root/t") [device_opened "/dev/iap0"; trace_opened "a.trace"]
       (Unopenable "/root/t" "could not create a trace file" (ErrMsg "open /root/t: permission denied"))
  /\ starts os0 world0 (mkInv false Serve ["/dev/iap0"] "b.trace")
  /\ honest good_host /\ device_at os0 world0 ["/dev/iap0"] "/dev/iap0" [[x05; x02; x55; x02; x00; x07; xf7; x00; x00]; [x05; x01; x00; x00; x00; x00; x00; x00; x00]]
  /\ recording_at os0 "b.trace"
  /\ (exists w', run0 (mkInv false Serve ["/dev/iap0"] "b.trace") world0 = done (w', Exited 0))
  /\ trace_at os0 world0 ["a.trace"] 0 "a.trace" (Regular [x3c] EOF)
  /\ (exists w', run0 (mkInv false Replay ["a.trace"] "") world0 = done (w', Exited 0))
  /\ (exists w', run0 (mkInv false View ["a.trace"] "") world0 = done (w', Exited 1))
  /\ (exists w', run0 (mkInv false SendCmd ["/dev/iap0"; "a.trace"] "b.trace") world0 = done (w', Sending "/dev/iap0" [x3c] EOF (Some "b.trace")))
  /\ ~ may_change (mkInv false Serve ["/dev/iap0"] "b.trace") "a.trace" /\ may_change (mkInv false Serve ["/dev/iap0"] "b.trace") "b.trace".
Proof.
  split. { apply stops_device; [left; reflexivity|]. apply dp_missing. left. reflexivity. }
  split. { apply stops_trace; [right; reflexivity|]. apply (tp_absent os0 world0 ["b.trace"] 0 "b.trace"); [reflexivity|discriminate|reflexivity|reflexivity]. }
  split. { eapply stops_send_recording; [reflexivity| | | |].
    - repeat split; discriminate.
    - repeat split; discriminate.
    - discriminate.
    - apply rp_denied; [discriminate|reflexivity]. }
  split. { eapply starts_serve; [reflexivity| |right; reflexivity]. repeat split; discriminate. }
  split; [exact (proj1 C68_case)|]. split; [repeat split; discriminate|]. split; [right; reflexivity|].
  split; [eexists; vm_compute; reflexivity|]. split; [repeat split; discriminate|].
  split; [eexists; vm_compute; reflexivity|]. split; [eexists; vm_compute; reflexivity|]. split; [eexists; vm_compute; reflexivity|].
  split; [intros (_ & [H|[H _]]); discriminate|]. split; [left; reflexivity|]. right. split; [reflexivity|discriminate].
Qed.

(** ** C90 *)

(** Recording changes nothing but the recording: with and without -w the server ends or not alike,
    logs the same, and leaves the device alike. *)
Theorem C90_recording {D} (devs : io_rw D) os errText sdump certLog rt clock order spares fuel fuel2 legacy args t w p d :
  honest devs -> device_at os w args p d -> t <> "" -> os_denies os OCreate t = None -> (forall dv, w_nodes w t <> Some (CharDevice dv)) ->
  ((exists w', run_tool devs os errText sdump certLog rt clock order spares fuel fuel2 (mkInv legacy Serve args "") w = done (w', Exited 0))
   <-> (exists w', run_tool devs os errText sdump certLog rt clock order spares fuel fuel2 (mkInv legacy Serve args t) w = done (w', Exited 0)))
  /\ forall w1 w2,
     run_tool devs os errText sdump certLog rt clock order spares fuel fuel2 (mkInv legacy Serve args "") w = done (w1, Exited 0) ->
     run_tool devs os errText sdump certLog rt clock order spares fuel fuel2 (mkInv legacy Serve args t) w = done (w2, Exited 0) ->
     (forall q, q <> t -> w_nodes w1 q = w_nodes w2 q)
     /\ exists l, w_stdout w1 = (w_stdout w ++ device_opened p :: map Logged l)%list
              /\ w_stdout w2 = (w_stdout w ++ device_opened p :: Logged (mkRec 3 "writing trace" [("path", t)]) :: map Logged l)%list.
Proof.
  intros HO A T OC ND.
  pose (B := serve_both devs HO (table legacy) (table_usable legacy) fuel2 spares errText sdump certLog rt std_registry clock fuel start d 0 []).
  assert (RT : recording_at os t) by (right; exact OC).
  assert (PT : p <> t). { intros <-. destruct A as (_ & _ & _ & A). exact (ND _ A). }
  split.
  - split; intros (w' & E).
    + destruct (serve_run _ _ _ _ _ _ _ _ _ _ _ (mkInv legacy Serve args "") _ _ _ _ _ eq_refl A (or_introl eq_refl) E)
        as (_ & _ & l & d' & _ & _ & _ & [(_ & st & n & PL)|(X & _)]); [|now destruct X].
      destruct (proj2 (B st) _ _ _ PL) as (file & PL2).
      exact (serve_traced_runs _ _ _ _ _ _ _ _ _ _ _ (mkInv legacy Serve args t) _ _ _ _ _ _ _ _ eq_refl A T OC ND PL2).
    + destruct (serve_run _ _ _ _ _ _ _ _ _ _ _ (mkInv legacy Serve args t) _ _ _ _ _ eq_refl A RT E)
        as (_ & _ & l & d' & _ & _ & _ & [(X & _)|(_ & _ & st & file & n & old & fin & PL & _)]); [now destruct T|].
      exact (serve_runs _ _ _ _ _ _ _ _ _ _ _ (mkInv legacy Serve args "") _ _ _ _ _ _ _ eq_refl A eq_refl (proj1 (B st) _ _ _ _ PL)).
  - intros w1 w2 E1 E2.
    destruct (serve_run _ _ _ _ _ _ _ _ _ _ _ (mkInv legacy Serve args "") _ _ _ _ _ eq_refl A (or_introl eq_refl) E1)
        as (_ & _ & l & d' & O1 & N1 & U1 & [(_ & st & n & PL)|(X & _)]); [|now destruct X].
    destruct (serve_run _ _ _ _ _ _ _ _ _ _ _ (mkInv legacy Serve args t) _ _ _ _ _ eq_refl A RT E2)
        as (_ & _ & l2 & d2 & O2 & N2 & U2 & [(X & _)|(_ & _ & st2 & file & n2 & old & fin & PL2 & _)]); [now destruct T|].
    cbn [iv_trace iv_legacy] in *. apply (proj1 (B st2)) in PL2. unfold plain_tp in PL2. rewrite PL in PL2. apply TraceFacts.some_inj in PL2.
    injection PL2 as <- <- <- <-.
    split.
    + intros q Q. destruct (string_dec q p) as [->|QP]; [congruence|]. rewrite (U1 q QP (or_intror eq_refl)), (U2 q QP (or_introl Q)). reflexivity.
    + exists l. split; [exact O1|]. rewrite O2. unfold recording_opened. destruct (String.eqb_spec t ""); [contradiction|reflexivity].
Qed.
Print Assumptions C90_recording.

Lemma fresh_file {D} (w w1 : world D) t old file fin : fresh w w1 t ->
  w_nodes w1 t = Some (Regular (overwrite old file) fin) ->
  (w_nodes w t = Some (Regular old fin) \/ w_nodes w t = None /\ old = [] /\ fin = EOF) ->
  overwrite old file = file /\ fin = EOF.
Proof.
  intros F N O. destruct F as [F|(o & new & f & A & B & L)]; destruct O as [O|(O & -> & ->)]; try congruence.
  - unfold overwrite. rewrite skipn_nil, app_nil_r. auto.
  - rewrite A in O. injection O as -> <-. rewrite N in B. injection B as <- <-. split; [|reflexivity].
    apply TraceSessions.overwrite_exact. unfold overwrite in L. rewrite app_length, skipn_length in L. lia.
Qed.

(** What [serve -w] recorded, [replay] repeats: it logs the same, entry by entry, but for errors of
    writing (none, if the device takes all writes). *)
Theorem C90_replay {D} (devs : io_rw D) os errText sdump certLog rt clock order spares fuel fuel2 legacy args t w w1 x p d args2 t2 :
  honest devs -> clean devs ->
  device_at os w args p d -> t <> "" -> recording_at os t -> os_denies os ORdOnly t = None ->
  run_tool devs os errText sdump certLog rt clock order spares fuel fuel2 (mkInv legacy Serve args t) w = done (w1, x) ->
  fresh w w1 t ->
  exists w2 l l2,
    run_tool devs os errText sdump certLog rt clock order spares fuel fuel2 (mkInv legacy Replay (t :: args2) t2) w1 = done (w2, Exited 0)
    /\ w_stdout w1 = (w_stdout w ++ [device_opened p; Logged (mkRec 3 "writing trace" [("path", t)])] ++ map Logged l)%list
    /\ w_stdout w2 = (w_stdout w1 ++ trace_opened t :: map Logged l2)%list
    /\ Forall2 same_entry l l2 /\ (obliging devs -> l = l2).
Proof.
  intros HO CL A T R RO E F.
  destruct (serve_run _ _ _ _ _ _ _ _ _ _ _ (mkInv legacy Serve args t) _ _ _ _ _ eq_refl A R E)
    as (_ & _ & l & d' & O & N & U & [(X & _)|(_ & _ & st & file & n & old & fin & PL & NF & OF)]); [now destruct T|].
  cbn [iv_trace iv_legacy] in *. destruct (fresh_file _ _ _ _ _ _ F NF OF) as [EO ->]. rewrite EO in NF.
  assert (G : forall P : option goerr -> Prop, (forall d f d' e, WriteFrame_dev (table legacy) (tracer_Write append_file devs) d f = done (d', e) -> P e) ->
    exists w2 l2, run_tool devs os errText sdump certLog rt clock order spares fuel fuel2 (mkInv legacy Replay (t :: args2) t2) w1 = done (w2, Exited 0)
      /\ w_stdout w2 = (w_stdout w1 ++ trace_opened t :: map Logged l2)%list /\ Forall2 (alike errText P) l l2).
  { intros P HP.
    destruct (replay_log errText sdump certLog rt std_registry clock start devs d fuel fuel2 (table legacy) spares st d' file n l P
                (table_usable _) (table_narrow _) HO CL HP PL) as (r & l2 & RL & AL).
    eexists _, l2. split; [|split; [|exact AL]].
    - apply (replay_runs _ _ _ _ _ _ _ _ _ _ _ (mkInv legacy Replay (t :: args2) t2) w1 t file EOF l2 st r n); [reflexivity| |exact RL].
      repeat split; assumption.
    - reflexivity. }
  destruct (G (fun _ => True)) as (w2 & l2 & E2 & O2 & AL); [trivial|].
  exists w2, l, l2. split; [exact E2|]. split.
  { rewrite O. unfold recording_opened. destruct (String.eqb_spec t ""); [contradiction|reflexivity]. }
  split; [exact O2|]. split; [exact (alike_same _ _ _ AL)|].
  intros OB. destruct (G (fun e => e = None)) as (w3 & l3 & E3 & O3 & AL3).
  { intros a f b e X. exact (write_none devs _ _ _ _ _ (table_usable legacy) OB X). }
  apply alike_eq in AL3 as <-. rewrite E2 in E3. apply TraceFacts.some_inj in E3. injection E3 as <-. rewrite O2 in O3.
  apply app_inv_head in O3. injection O3 as O3. clear -O3. revert l O3. induction l2 as [|a l2 IH]; intros [|b l] O3; try discriminate; [reflexivity|].
  cbn [map] in O3. injection O3 as <- O3. f_equal. exact (IH _ O3).
Qed.
Print Assumptions C90_replay.

(** And [view] shows it: the same entries about what the accessory sent, and the same replies (see
    C88 for the conditions). *)
Theorem C90_view {D} (devs : io_rw D) os errText sdump certLog rt clock order spares fuel fuel2 legacy args t w w1 x p d
  args2 t2 spares' fuel' fuel2' :
  honest devs -> clean devs -> obliging devs -> (forall b, Forall quiet (certLog b)) ->
  device_at os w args p d -> t <> "" -> recording_at os t -> os_denies os ORdOnly t = None ->
  run_tool devs os errText sdump certLog rt clock order spares fuel fuel2 (mkInv legacy Serve args t) w = done (w1, x) ->
  fresh w w1 t ->
  (forall r, In (Logged r) (skipn (List.length (w_stdout w)) (w_stdout w1)) -> lr_Message r = ">> PACKET" -> field "len" r <> Some "256") ->
  run_tool devs os errText sdump certLog rt clock order spares' fuel' fuel2' (mkInv legacy View (t :: args2) t2) w1 <> Some Panic ->
  exists w2 l l2,
    run_tool devs os errText sdump certLog rt clock order spares' fuel' fuel2' (mkInv legacy View (t :: args2) t2) w1 = done (w2, Exited 0)
    /\ w_stdout w1 = (w_stdout w ++ [device_opened p; Logged (mkRec 3 "writing trace" [("path", t)])] ++ map Logged l)%list
    /\ w_stdout w2 = (w_stdout w1 ++ trace_opened t :: map Logged l2)%list
    /\ filter incoming l2 = filter incoming l /\ replies_viewed l2 = replies_sent l.
Proof.
  intros HO CL OB Q A T R RO E F N256 NP.
  destruct (serve_run _ _ _ _ _ _ _ _ _ _ _ (mkInv legacy Serve args t) _ _ _ _ _ eq_refl A R E)
    as (_ & _ & l & d' & O & N & U & [(X & _)|(_ & _ & st & file & n & old & fin & PL & NF & OF)]); [now destruct T|].
  cbn [iv_trace iv_legacy] in *. destruct (fresh_file _ _ _ _ _ _ F NF OF) as [EO ->]. rewrite EO in NF.
  assert (TA : trace_at os w1 (t :: args2) 0 t (Regular file EOF)) by (repeat split; assumption).
  destruct (watched_log errText sdump certLog rt std_registry clock _ fuel start _ [] _ _ _ PL) as (hs & PW).
  assert (NP' : dumpTrace rt std_registry (table legacy) spares' (NewReader file EOF) <> Some Panic).
  { intros X. apply NP. unfold run_tool. cbn [iv_cmd]. unfold view_action.
    rewrite (trace_run os errText (mkInv legacy View (t :: args2) t2) w1 t file EOF _ _ eq_refl TA).
    change (hidReportDefs (mkInv legacy View (t :: args2) t2)) with (table legacy). rewrite X. reflexivity. }
  assert (RD : Forall readable hs).
  { apply (session_readable _ _ _ _ _ _ _ _ _ _ _ _ _ Q sound_init PW). left. apply Forall_forall. intros r I.
    intros M; apply (N256 r); [|exact M]. rewrite O, skipn_app, skipn_all, Nat.sub_diag. cbn [skipn app]. right. apply in_or_app. right. now apply in_map. }
  destruct (logs_agree errText sdump certLog rt clock _ devs d fuel fuel2 (table legacy) spares st d' file n hs l spares'
              (table_usable _) (table_small _) HO OB CL Q sound_init PW RD NP') as (q & es & DT & A1 & A2).
  eexists _, l, (dump_log errText es). split.
  { exact (view_runs _ _ _ _ _ _ _ _ _ _ _ (mkInv legacy View (t :: args2) t2) w1 t file EOF q es eq_refl TA DT). }
  split. { rewrite O. unfold recording_opened. destruct (String.eqb_spec t ""); [contradiction|reflexivity]. }
  split; [reflexivity|]. split; assumption.
Qed.
Print Assumptions C90_view.

Example C90_case :
  honest good_host /\ clean good_host /\ obliging good_host
  /\ device_at os0 world0 ["/dev/iap0"] "/dev/iap0" [[x05; x02; x55; x02; x00; x07; xf7; x00; x00]; [x05; x01; x00; x00; x00; x00; x00; x00; x00]]
  /\ "b.trace" <> "" /\ recording_at os0 "b.trace" /\ os_denies os0 ORdOnly "b.trace" = None
  /\ exists w1, run0 (mkInv false Serve ["/dev/iap0"] "b.trace") world0 = done (w1, Exited 0) /\ fresh world0 w1 "b.trace"
     /\ w_nodes w1 "/dev/iap0" = Some (CharDevice [])
     /\ exists w2, run0 (mkInv false Replay ["b.trace"] "") w1 = done (w2, Exited 0)
     /\ skipn 2 (w_stdout w1)
        = map Logged [mkRec 4 "<< FRAME" [("len", "14")];
            mkRec 4 "<< PACKET" [("len", "2")]; mkRec 4 "<< CMD" [("id", "0x00,0x07"); ("trx", "<nil>"); ("type", "*general.RequestiPodName")];
            mkRec 4 ">> CMD" [("id", "0x00,0x08"); ("trx", "<nil>"); ("type", "*general.ReturniPodName")];
            mkRec 4 ">> PACKET" [("len", "14")]; mkRec 4 ">> FRAME" [("len", "17")]; mkRec 3 "EOF" []]
     /\ w_stdout w2 = (w_stdout w1 ++ trace_opened "b.trace" :: skipn 2 (w_stdout w1))%list.
Proof.
  split; [exact (proj1 C68_case)|]. split; [exact (proj1 (proj2 C68_case))|].
  split; [intros s p; exists s; reflexivity|]. split; [repeat split; discriminate|]. split; [discriminate|].
  split; [right; reflexivity|]. split; [reflexivity|]. eexists. split; [vm_compute; reflexivity|].
  split; [left; reflexivity|]. split; [reflexivity|]. eexists. split; [vm_compute; reflexivity|]. split; reflexivity.
Qed.

(** Finding: a trace recorded over a longer one is not what was recorded (C54): here the replay
    answers one more request than the server did. *)
Definition world1 : world (list bytes) :=
  mkWorld (fun p => if p =? "/dev/iap0" then Some (CharDevice [[x05; x00; x55; x02; x00; x07; xf7; x00; x00]; [x05; x00; x55; x02; x00; x07; xf7; x00; x00]])
                    else if p =? "/dev/iap1" then Some (CharDevice [[x05; x00; x00; x00; x00; x00; x00; x00; x00]]) else None) [] "".
Definition replies (l : list output) : nat :=
  List.length (filter (fun o => match o with Logged r => lr_Message r =? ">> FRAME" | _ => false end) l).
Theorem C90_stale_refuted :
  exists w1 w2 w3,
    run0 (mkInv false Serve ["/dev/iap0"] "b.trace") world1 = done (w1, Exited 0)
    /\ run0 (mkInv false Serve ["/dev/iap1"] "b.trace") w1 = done (w2, Exited 0)
    /\ replies (w_stdout w2) = replies (w_stdout w1)
    /\ run0 (mkInv false Replay ["b.trace"] "") w2 = done (w3, Exited 0)
    /\ replies (w_stdout w3) <> replies (w_stdout w2).
Proof.
  eexists _, _, _. split; [vm_compute; reflexivity|]. split; [vm_compute; reflexivity|]. split; [reflexivity|].
  split; [vm_compute; reflexivity|]. vm_compute. discriminate.
Qed.
Print Assumptions C90_stale_refuted.
