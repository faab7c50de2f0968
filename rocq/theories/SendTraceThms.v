(** Lemmas on the send mode with a recording. *)
From Coq Require Import ZifyBool ZifyNat ZifyN Lia.
From Verif Require Import Base BaseFacts GoTypes Types Payload Lingo Command Handlers SpecHandlers Packet SpecPacket PacketThms Hid SpecHid HidThms
  Trace SpecTrace TraceFacts TraceThms TraceSessions Server SpecServer ServerFacts ServerThms SessionThms Send SpecSend SendThms SpecView ViewThms
  SpecPlug SpecTransport TransportThms SpecWire ProtocolProps SpecEdit EditThms SpecCut CutThms SendEndThms SendTrace SpecSendTrace.
#[local] Opaque std_registry.

Lemma offered_app a b : offered (a ++ b) = offered a ++ offered b.
Proof. apply flat_map_app. Qed.
Lemma went_app a b : went (a ++ b) = went a ++ went b.
Proof. apply flat_map_app. Qed.
Lemma given_app a b : given (a ++ b) = given a ++ given b.
Proof. apply flat_map_app. Qed.
Lemma came_app a b : came (a ++ b) = came a ++ came b.
Proof. unfold came. rewrite given_app. apply flat_map_app. Qed.
Lemma some_app a b : some_bytes (a ++ b) = some_bytes a ++ some_bytes b.
Proof. apply filter_app. Qed.
Lemma in_data_app a b : in_data (a ++ b) = in_data a ++ in_data b.
Proof. unfold in_data, of_dir. now rewrite filter_app, map_app. Qed.
Lemma out_data_app a b : out_data (a ++ b) = out_data a ++ out_data b.
Proof. unfold out_data, of_dir. now rewrite filter_app, map_app. Qed.

(** One read of the trace to send. *)
Lemma take_report r r' x : replay_read r = done (r', x) ->
  match ReadReport x with
  | inr _ => to_send_from r []
  | inl rep => List.length (rep_Data rep) <= 1022
      /\ forall out, to_send_from r' out -> to_send_from r ((rep_ID rep :: rep_LinkControl rep :: rep_Data rep) :: out)
  end.
Proof.
  unfold replay_read, dir_Read.
  destruct (dir_read_send maxRawSize (Datatypes.S (List.length (rd_tokens r))) r ltac:(lia)) as (r1 & x1 & -> & C).
  unfold done. intros E. injection E as <- <-. destruct C as [(e & -> & T)|(m & D0 & -> & L & S3 & G3)]; [exact T|].
  unfold ReadReport. rewrite firstn_firstn, Nat.min_id. assert (X : List.length (firstn maxRawSize (msg_Data m)) <= List.length (msg_Data m)) by (rewrite firstn_length; lia).
  assert (Y : List.length (firstn maxRawSize (msg_Data m)) <= maxRawSize) by (rewrite firstn_length; lia).
  change 1024 with maxRawSize in G3.
  destruct (firstn maxRawSize (msg_Data m)) as [|a [|b [|c t]]] eqn:F; cbn [List.length] in X, Y;
    try (apply S3; apply (f_equal (@List.length byte)) in F; rewrite firstn_length in F; unfold maxRawSize in F; cbn [List.length] in F; lia).
  cbn [rep_ID rep_LinkControl rep_Data]. split; [unfold maxRawSize in Y; cbn [List.length]; lia|]. apply G3. lia.
Qed.

Section Fine.
  Context {S D T : Type} (rt : bool) (reg : registry) (clock : nat -> datetime) (g : DeviceGeneral S)
          (defs : list ReportDef) (spares : nat -> bytes) (h : hstate S) (tw : io_write T) (dev : io_rw D).
  Notation step := (fine_step rt reg clock g defs spares h tw (witnessed dev)).
  Notation steps := (fine_steps rt reg clock g defs spares h tw (witnessed dev)).

  Definition last_read {A} (i : option A) : list A := match i with Some x => [x] | None => [] end.

  Definition finv (out : list bytes) (s : fine_state (D * list moved) T) : Prop :=
    (exists later, out = offered (snd (fn_dev s)) ++ later
       /\ (if fn_sending s then to_send_from (fn_trace s) later else later = []))
    /\ given (snd (fn_dev s)) = fn_got s ++ last_read (fn_in s).

  Lemma finv_step out s s' : finv out s -> step s s' -> finv out s'.
  Proof.
    intros [(later & O & L) G] H. revert O L G.
    destruct H as [r d f i got r' x e R E|r d f i got r' x rep d' n err R E W B|r b d f m i got|r b d f o got d' x C R B|r b d f o x got];
      cbn [fn_trace fn_sending fn_dev fn_file fn_out fn_in fn_got]; intros O L G; split; cbn [fn_trace fn_sending fn_dev fn_file fn_out fn_in fn_got].
    - pose proof (take_report _ _ _ R) as Q. rewrite E in Q. rewrite (to_send_from_fun _ _ _ L Q) in O. eauto.
    - exact G.
    - pose proof (take_report _ _ _ R) as Q. rewrite E in Q. destruct Q as [_ Q].
      destruct (to_send_exists _ r' (Nat.lt_succ_diag_r _)) as (o2 & T2). specialize (Q _ T2).
      rewrite (to_send_from_fun _ _ _ L Q) in O. exists o2. split; [|exact T2].
      cbn [witnessed rw_write] in W. destruct (rw_write dev (fst d) _) as [d1 [n1 e1]]. injection W as <- <- <-.
      cbn [snd]. rewrite offered_app, <- app_assoc. exact O.
    - cbn [witnessed rw_write] in W. destruct (rw_write dev (fst d) _) as [d1 [n1 e1]]. injection W as <- <- <-.
      cbn [snd]. rewrite given_app. cbn [given flat_map app]. now rewrite app_nil_r.
    - eauto.
    - exact G.
    - exists later. split; [|exact L]. cbn [witnessed rw_read] in R. destruct (rw_read dev (fst d) maxRawSize) as [d1 x1]. injection R as <- <-.
      cbn [snd]. rewrite offered_app. cbn [offered flat_map app]. now rewrite app_nil_r.
    - cbn [witnessed rw_read] in R. destruct (rw_read dev (fst d) maxRawSize) as [d1 x1]. injection R as <- <-.
      cbn [snd]. rewrite given_app, G. cbn [last_read given flat_map app]. now rewrite app_nil_r.
    - eauto.
    - rewrite G. cbn [last_read]. now rewrite app_nil_r.
  Qed.

  Lemma finv_start content fin d f out : sendable_of content fin out -> finv out (fine_start content fin (d, []) f).
  Proof. intros Q. split; [exists out; split; [reflexivity|exact Q]|reflexivity]. Qed.

  Lemma finv_steps content fin d f out s : sendable_of content fin out -> steps (fine_start content fin (d, []) f) s -> finv out s.
  Proof.
    intros Q H. remember (fine_start content fin (d, []) f) as s0 eqn:E0. induction H as [s|s s1 s' H IH H1].
    - subst s. now apply finv_start.
    - exact (finv_step out s1 s' (IH E0) H1).
  Qed.
End Fine.

(** ** The file *)

Lemma written_line ms texts m f : Forall2 line_of ms texts -> f = file_of texts -> (msg_Dir m = 0%N \/ msg_Dir m = 1%N) ->
  exists t, (msg_Data m <> [] -> line_of m t) /\ fst (WriteMsg append_file f m) = match msg_Data m with [] => f | _ => file_of (texts ++ [t]) end.
Proof.
  intros F E D. destruct (msg_Data m) as [|b bs] eqn:M.
  - exists []. split; [congruence|]. destruct (WriteMsg_refused append_file f m) as [e ->]; [|reflexivity].
    intros [_ R]. congruence.
  - assert (R : recordable m) by (split; [exact D|congruence]). apply recordable_line in R as [t R]. apply marshal_line in R.
    exists t. split; [auto|]. rewrite (WriteMsg_line _ _ m t R). unfold append_file. cbn [fst]. subst f. unfold file_of.
    rewrite map_app, concat_app. cbn [map List.concat]. now rewrite app_nil_r.
Qed.

Section File.
  Context {S D : Type} (rt : bool) (reg : registry) (clock : nat -> datetime) (g : DeviceGeneral S)
          (defs : list ReportDef) (spares : nat -> bytes) (h : hstate S) (dev : io_rw D).
  Notation step := (fine_step rt reg clock g defs spares h append_file (witnessed dev)).
  Notation steps := (fine_steps rt reg clock g defs spares h append_file (witnessed dev)).

  Definition pend_out (o : option Msg) : list bytes := match o with Some m => [msg_Data m] | None => [] end.
  Definition clean_data (l : list raw_read) : list bytes := flat_map (fun x => match snd x with None => [fst x] | Some _ => [] end) l.
  Definition small_msg (m : Msg) : Prop := (msg_Dir m = 0%N \/ msg_Dir m = 1%N) /\ List.length (msg_Data m) <= 1024.

  Definition linv (s : fine_state (D * list moved) bytes) : Prop :=
    (forall m, fn_out s = Some m -> msg_Dir m = 1%N /\ List.length (msg_Data m) <= 1024)
    /\ (forall x, fn_in s = Some x -> snd x = None -> List.length (fst x) <= 1024)
    /\ exists ms texts, Forall2 line_of ms texts /\ Forall small_msg ms /\ fn_file s = file_of texts
         /\ some_bytes (went (snd (fn_dev s))) = out_data ms ++ some_bytes (pend_out (fn_out s))
         /\ some_bytes (came (snd (fn_dev s))) = in_data ms ++ some_bytes (clean_data (last_read (fn_in s)))
         /\ in_data ms = some_bytes (clean_data (fn_got s)).

  Lemma linv_step s s' : linv s -> step s s' -> linv s'.
  Proof.
    intros (P & Q & ms & texts & F & SM & E & O & I & G) H. revert P Q E O I G.
    destruct H as [r d f i got r' x e R RR|r d f i got r' x rep d' n err R RR W B|r b d f m i got|r b d f o got d' x C R B|r b d f o x got];
      cbn [fn_trace fn_sending fn_dev fn_file fn_out fn_in fn_got]; intros P Q E O I G; unfold linv;
      cbn [fn_trace fn_sending fn_dev fn_file fn_out fn_in fn_got].
    - split; [exact P|]. split; [exact Q|]. exists ms, texts. repeat split; assumption.
    - pose proof (take_report _ _ _ R) as X. rewrite RR in X. destruct X as [X _].
      cbn [witnessed rw_write] in W. destruct (rw_write dev (fst d) _) as [d1 [n1 e1]]. injection W as <- <- <-.
      split.
      { intros m M. destruct e1; [discriminate|]. injection M as <-. split; [reflexivity|]. cbn [msg_Data]. rewrite firstn_length. cbn [List.length]. lia. }
      split; [exact Q|]. exists ms, texts. cbn [snd pend_out some_bytes filter] in *. rewrite app_nil_r in O.
      rewrite went_app, came_app, !some_app, O, I. cbn [came given flat_map some_bytes filter app]. rewrite app_nil_r.
      destruct e1; cbn [went flat_map app some_bytes filter pend_out msg_Data]; repeat split; try assumption; reflexivity.
    - destruct (P m eq_refl) as [DM LM].
      destruct (written_line ms texts m f F E (or_intror DM)) as (t & L & WM). rewrite WM.
      split; [intros m' M; discriminate M|]. split; [exact Q|].
      cbn [pend_out some_bytes filter] in *. destruct (msg_Data m) as [|c cs] eqn:MD.
      + exists ms, texts. repeat split; assumption.
      + exists (ms ++ [m]), (texts ++ [t]). rewrite out_data_app, in_data_app, O, I, app_nil_r.
        assert (OD : out_data [m] = [c :: cs]) by (unfold out_data, of_dir; cbn [filter]; rewrite DM; cbn [N.eqb Pos.eqb map]; now rewrite MD).
        assert (ID : in_data [m] = []) by (unfold in_data, of_dir; cbn [filter]; rewrite DM; reflexivity).
        rewrite OD, ID, app_nil_r. repeat split; try assumption; try reflexivity.
        * apply Forall2_app; [exact F|]. constructor; [apply L; discriminate|constructor].
        * apply Forall_app. split; [exact SM|]. constructor; [|constructor]. split; [now right|rewrite MD; exact LM].
    - cbn [witnessed rw_read] in R. destruct (rw_read dev (fst d) maxRawSize) as [d1 x1]. injection R as <- <-.
      split; [exact P|]. split; [intros x M N; injection M as <-; exact (B N)|]. exists ms, texts.
      cbn [snd last_read clean_data flat_map some_bytes filter] in *. rewrite app_nil_r in I.
      rewrite went_app, came_app, !some_app, O, I. cbn [went flat_map some_bytes filter app]. rewrite app_nil_r.
      unfold came. cbn [given flat_map app]. repeat split; try assumption. now rewrite !app_nil_r.
    - specialize (Q x eq_refl). split; [exact P|]. split; [intros y M; discriminate M|].
      change (clean_data (last_read None)) with (@nil bytes). cbn [last_read] in I.
      assert (IX : clean_data [x] = match snd x with None => [fst x] | Some _ => [] end).
      { unfold clean_data. cbn [flat_map]. apply app_nil_r. }
      assert (CG : some_bytes (clean_data (got ++ [x])) = in_data ms ++ some_bytes (clean_data [x])).
      { rewrite G. unfold clean_data. now rewrite flat_map_app, some_app. }
      rewrite CG, IX. rewrite IX in I. clear CG IX. destruct (snd x) as [e|].
      + exists ms, texts. cbn [some_bytes filter] in *. rewrite app_nil_r in *. repeat split; try assumption; reflexivity.
      + destruct (written_line ms texts (mkMsg DirIn 0 (fst x)) f F E (or_introl eq_refl)) as (t & L & WM). rewrite WM. cbn [msg_Data] in *.
        specialize (Q eq_refl). cbn [some_bytes filter] in *. destruct (fst x) as [|c cs].
        * exists ms, texts. rewrite ?app_nil_r in *. repeat split; try assumption; reflexivity.
        * exists (ms ++ [mkMsg DirIn 0 (c :: cs)]), (texts ++ [t]). rewrite out_data_app, in_data_app.
          change (out_data [mkMsg DirIn 0 (c :: cs)]) with (@nil bytes). change (in_data [mkMsg DirIn 0 (c :: cs)]) with [c :: cs].
          rewrite !app_nil_r. repeat split; try assumption; try reflexivity.
          -- apply Forall2_app; [exact F|]. constructor; [apply L; discriminate|constructor].
          -- apply Forall_app. split; [exact SM|]. constructor; [|constructor]. split; [now left|exact Q].
  Qed.

  Lemma linv_steps content fin d s : steps (fine_start content fin (d, []) []) s -> linv s.
  Proof.
    intros H. remember (fine_start content fin (d, []) []) as s0 eqn:E0. induction H as [s|s s1 s' H IH H1].
    - subst s. split; [intros m M; discriminate M|]. split; [intros x M; discriminate M|]. exists [], []. repeat split; constructor.
    - exact (linv_step s1 s' (IH E0) H1).
  Qed.
End File.

(** ** The receiver, and a server on a device that gives the same reads *)

Lemma wait_frame defs o : forall fuel buf l l' r, ReadFrame_dev fuel defs wait_read buf l = done (l', r) ->
  ReadFrame_dev fuel defs wire_read buf (l, o) = done ((l', o), r).
Proof.
  induction fuel as [|fuel IH]; intros buf l l' r; cbn [ReadFrame_dev]; [discriminate|].
  destruct l as [|x l]; cbn [wait_read wire_read fst snd io_bind done]; [discriminate|].
  destruct (ReadReport x) as [rep|e]; [|intros E; injection E as <- <-; reflexivity].
  destruct (Find defs _) as [rdf|e]; [|intros E; injection E as <- <-; reflexivity]. cbv zeta.
  destruct (_ <? 0)%Z; [discriminate|].
  destruct (_ =? LinkControlDone)%N; [intros E; injection E as <- <-; reflexivity|].
  destruct (_ =? LinkControlMoreToFollow)%N; [apply IH|].
  destruct (_ =? N.lor _ _)%N; [apply IH|].
  destruct (_ =? LinkControlContinue)%N; [intros E; injection E as <- <-; reflexivity|apply IH].
Qed.

Lemma wait_replies rt fuel defs spares cmds : usable defs -> forall mode l o n m w,
  write_replies rt (hid_transport fuel defs spares wait_read discard) mode cmds (l, n) = done (m, w) ->
  w = (l, n) /\ exists o', write_replies rt (hid_transport fuel defs spares wire_read wire_write) mode cmds ((l, o), n) = done (m, ((l, o'), n)).
Proof.
  intros U. induction cmds as [|c cmds IH]; intros mode l o n m w; cbn [write_replies].
  - intros E. injection E as <- <-. split; [reflexivity|]. exists o. reflexivity.
  - destruct (MarshalCmd rt mode c) as [[mode' res]|]; cbn [io_bind]; [|discriminate]. cbv zeta.
    destruct (WritePacket _ _) as [f x]. cbn [tp_WriteFrame hid_transport fst snd].
    rewrite (write_discard defs _ f U). destruct (wire_sent defs l o f U) as (o1 & E & _). rewrite E. cbn [io_bind done fst snd]. apply IH.
Qed.

Lemma wait_loop {S} rt clock (g : DeviceGeneral S) defs spares : usable defs -> forall fuel fuel2 st l n o st' w,
  processFrames_loop fuel rt std_registry clock g (hid_transport fuel2 defs spares wait_read discard) st (l, n) = done (st', w) ->
  exists w2, processFrames_loop fuel rt std_registry clock g (hid_transport fuel2 defs spares wire_read wire_write) st ((l, o), n) = done (st', w2).
Proof.
  intros U. induction fuel as [|fuel IH]; intros fuel2 st l n o st' w; [discriminate|].
  cbn [processFrames_loop tp_ReadFrame hid_transport fst snd].
  destruct (ReadFrame_dev fuel2 defs wait_read [] l) as [[[l' r]|]|] eqn:RF; cbn [io_bind done]; try discriminate.
  rewrite (wait_frame defs o _ _ _ _ _ RF). cbn [io_bind done]. destruct r as [fr|e].
  - unfold process_frame. destruct (frame_packets _ _ _ _) as [[[m1 evs]|]|]; cbn [io_bind]; try discriminate.
    destruct (handle_all std_registry clock g (inCmds evs) (sv_h st)) as [[h1 u]|]; cbn [io_bind]; [|discriminate].
    destruct (write_replies rt (hid_transport fuel2 defs spares wait_read discard) m1 _ _) as [[[m2 w2]|]|] eqn:WR; cbn [io_bind done]; try discriminate.
    destruct (wait_replies rt fuel2 defs spares _ U m1 l' o (Datatypes.S n) m2 w2 WR) as (-> & o' & W2).
    intros H. destruct (IH _ _ _ _ o' _ _ H) as (w2 & W3).
    lazymatch goal with |- context [write_replies ?a ?b ?c ?d ?e] => assert (E : write_replies a b c d e = done (m2, ((l', o'), Datatypes.S n))) by exact W2 end.
    rewrite E. cbn [io_bind done]. exists w2. exact W3.
  - destruct e; [intros E; injection E as <- _; eexists; reflexivity|apply IH..].
Qed.

(** ** The recording as a text *)

Lemma recording_text ms texts : Forall2 line_of ms texts -> Forall small_msg ms ->
  is_text (file_of texts) texts /\ Forall (fun l => (len l <= 65535)%N) texts /\ incoming texts (ins ms).
Proof.
  intros F SM. split; [|split].
  - split; [exact (Forall2_line_no_nl _ _ F)|now left].
  - clear -F SM. induction F as [|m t ms texts L F IH]; constructor; inversion SM as [|? ? [_ LM] SM']; subst; auto.
    apply (line_short m t L). unfold len. lia.
  - exact (lines_incoming ms texts F).
Qed.

Lemma Forall_filter {A} (P : A -> Prop) f l : Forall P l -> Forall P (filter f l).
Proof. induction 1 as [|x l p F IH]; cbn [filter]; [constructor|]. destruct (f x); [constructor|]; assumption. Qed.

Lemma clean_all (got : list raw_read) : Forall (fun x => snd x = None /\ fst x <> []) got -> some_bytes (clean_data got) = map fst got.
Proof.
  unfold clean_data. induction 1 as [|[b e] got [A B] F IH]; [reflexivity|]. cbn [fst snd] in *. subst e. cbn [flat_map app map fst snd].
  cbn [some_bytes filter]. destruct b; [congruence|]. f_equal. exact IH.
Qed.

Lemma clean_got ms got : Forall small_msg ms -> Forall (fun x => snd x = None /\ fst x <> []) got ->
  in_data ms = some_bytes (clean_data got) -> map as_read (ins ms) = got.
Proof.
  intros SM CL G. rewrite (clean_all _ CL) in G. unfold ins. unfold in_data in G.
  assert (SO : Forall small_msg (of_dir 0 ms)) by (apply Forall_filter; exact SM). clear SM. revert got CL G.
  induction SO as [|m ms0 [_ LM] SO IH]; intros [|[b e] got] CL G; cbn [map] in *; try discriminate; [reflexivity|].
  injection G as G1 G2. inversion CL as [|? ? [A B] CL']; subst. cbn [fst snd] in *. subst e. cbn [as_read].
  rewrite firstn_all2 by exact LM. f_equal. now apply IH.
Qed.

(** A device that says that it has ended after [l], and one that gives [l] and ends. *)
Definition ended_list (d1 d2 : wire) : Prop :=
  fst d1 = fst d2 ++ [([], Some EOF)] /\ snd d1 = snd d2 \/ fst d1 = [] /\ fst d2 = [] /\ snd d1 = snd d2.
Lemma ended_reads d1 d2 : ended_list d1 d2 -> compare (wire_read d1) (wire_read d2) (fun x y => ended_list (fst x) (fst y) /\ snd x = snd y).
Proof.
  destruct d1 as [l1 o1], d2 as [l2 o2]. unfold ended_list, wire_read. cbn [fst snd]. intros [[-> ->]|(-> & -> & ->)].
  - destruct l2 as [|x l2]; cbn; [split; [right; auto|reflexivity]|split; [left; auto|reflexivity]].
  - cbn. split; [right; auto|reflexivity].
Qed.
Lemma ended_writes d1 d2 p : ended_list d1 d2 ->
  compare (Some (wire_write d1 p)) (Some (wire_write d2 p)) (fun x y => ended_list (fst x) (fst y) /\ snd x = snd y).
Proof.
  destruct d1 as [l1 o1], d2 as [l2 o2]. unfold ended_list, wire_write. cbn [fst snd]. intros [[-> ->]|(-> & -> & ->)]; cbn; split; auto.
Qed.

(** ** Atomic rounds, and the end of the sending *)

Section Rounds.
  Context {S D T : Type} (rt : bool) (reg : registry) (clock : nat -> datetime) (g : DeviceGeneral S)
          (defs : list ReportDef) (spares : nat -> bytes) (h : hstate S) (tw : io_write T) (dev : io_rw D).
  Notation step := (fine_step rt reg clock g defs spares h tw dev).
  Notation steps := (fine_steps rt reg clock g defs spares h tw dev).

  Lemma fine_trans s1 s2 s3 : steps s1 s2 -> steps s2 s3 -> steps s1 s3.
  Proof. intros A B. induction B as [s|s s4 s5 B IH C]; [exact A|]. eapply fine_more; [now apply IH|exact C]. Qed.

  Definition between (s : send_state (D * T)) : fine_state D T :=
    mkFine (sn_trace s) (sn_sending s) (fst (sn_dev s)) (snd (sn_dev s)) None None (sn_got s).

  Lemma atomic_step s s' : send_step rt reg clock g defs spares h (traced_read tw dev) (tracer_Write tw dev) s s' -> steps (between s) (between s').
  Proof.
    intros [r [d f] got r' d' b NP E|r b [d f] got d' x W E]; unfold between; cbn [sn_trace sn_sending sn_dev sn_got fst snd].
    - unfold send_once in E. destruct (replay_read r) as [[[r1 x]|]|] eqn:R; cbn [io_bind] in E; try discriminate.
      destruct (ReadReport x) as [rep|e] eqn:RR.
      2: { unfold done in E. injection E as <- <- <-. eapply fine_more; [apply fine_refl|]. eapply fine_stop; eassumption. }
      unfold dev_WriteReport, WriteReport, raw_Write, tracer_Write in E. cbn [bind] in E.
      destruct (rw_write dev d (rep_ID rep :: rep_LinkControl rep :: rep_Data rep)) as [d1 [n err]] eqn:RW.
      destruct err as [e|].
      + destruct (Nat.ltb _ n) eqn:LT; [discriminate|]. apply Nat.ltb_ge in LT. cbn [List.length] in LT.
        unfold done in E. injection E as <- <- <-. cbn [fst snd]. eapply fine_more; [apply fine_refl|].
        exact (fine_write rt reg clock g defs spares h tw dev r d f None got r1 x rep d1 n (Some e) R RR RW LT).
      + destruct (Nat.ltb _ n) eqn:LT; [exfalso; revert E; destruct (Nat.ltb _ 0); discriminate|].
        destruct (WriteMsg tw f _) as [f1 e1] eqn:WM. cbn [bind] in E. rewrite LT in E.
        apply Nat.ltb_ge in LT. cbn [List.length] in LT.
        unfold done in E. injection E as <- <- <-. cbn [fst snd].
        eapply fine_more; [eapply fine_more; [apply fine_refl|
          exact (fine_write rt reg clock g defs spares h tw dev r d f None got r1 x rep d1 n None R RR RW LT)]|].
        assert (X : f1 = fst (WriteMsg tw f (mkMsg DirOut 0 (firstn n (rep_ID rep :: rep_LinkControl rep :: rep_Data rep))))) by now rewrite WM.
        rewrite X. apply fine_wrote.
    - unfold traced_read, tracer_Read in E. destruct (rw_read dev d maxRawSize) as [d1 [bs err]] eqn:RD.
      assert (X : (err = None -> List.length bs <= maxRawSize)
                  /\ d' = (d1, match err with None => fst (WriteMsg tw f (mkMsg DirIn 0 bs)) | Some _ => f end) /\ x = (bs, err)).
      { destruct err as [e|]; [unfold done in E; injection E as <- <-; repeat split; discriminate|].
        destruct (Nat.ltb maxRawSize (List.length bs)) eqn:LT; [discriminate|]. apply Nat.ltb_ge in LT.
        destruct (WriteMsg tw f _) as [f1 e1] eqn:WM. unfold done in E. injection E as <- <-. repeat split; auto. }
      destruct X as (X1 & -> & ->). cbn [fst snd].
      eapply fine_more; [eapply fine_more; [apply fine_refl|eapply (fine_read _ _ _ _ _ _ _ _ _ r b d f None got d1 (bs, err) W RD); exact X1]|].
      exact (fine_was_read rt reg clock g defs spares h tw dev r b d1 f None (bs, err) got).
  Qed.

  Lemma atomic_steps s s' : send_steps rt reg clock g defs spares h (traced_read tw dev) (tracer_Write tw dev) s s' -> steps (between s) (between s').
  Proof.
    intros H. induction H as [s|s s1 s2 H IH H1]; [apply fine_refl|]. exact (fine_trans _ _ _ IH (atomic_step _ _ H1)).
  Qed.

  Lemma fine_completes (OK : forall d p, fst (snd (rw_write dev d p)) <= List.length p) : forall k r b d f o i got,
    List.length (rd_tokens r) < k ->
    exists r' d' f', steps (mkFine r b d f o i got) (mkFine r' false d' f' None i got).
  Proof.
    assert (FLUSH : forall r b d f o i got, exists f', steps (mkFine r b d f o i got) (mkFine r b d f' None i got)).
    { intros r b d f [m|] i got; [|eexists; apply fine_refl]. eexists. eapply fine_more; [apply fine_refl|apply fine_wrote]. }
    induction k as [|k IH]; intros r b d f o i got L; [lia|].
    destruct (FLUSH r b d f o i got) as (f1 & ST). destruct b; [|exists r, d, f1; exact ST].
    destruct (dir_read_send maxRawSize (Datatypes.S (List.length (rd_tokens r))) r ltac:(lia)) as (r' & x & DR & C).
    assert (R : replay_read r = done (r', x)) by (unfold replay_read, dir_Read; now rewrite DR).
    destruct (ReadReport x) as [rep|e] eqn:RR.
    - destruct C as [(e & -> & _)|(m & _ & _ & LT & _)]; [discriminate RR|].
      destruct (rw_write dev d (rep_ID rep :: rep_LinkControl rep :: rep_Data rep)) as [d1 [n err]] eqn:RW.
      pose proof (OK d (rep_ID rep :: rep_LinkControl rep :: rep_Data rep)) as N. rewrite RW in N. cbn [fst snd List.length] in N.
      destruct (IH r' true d1 f1 (match err with None => Some (mkMsg DirOut 0 (firstn n (rep_ID rep :: rep_LinkControl rep :: rep_Data rep))) | Some _ => None end) i got ltac:(lia)) as (r2 & d2 & f2 & ST2).
      exists r2, d2, f2. eapply fine_trans; [|exact ST2]. eapply fine_more; [exact ST|]. eapply fine_write; eassumption.
    - exists r', d, f1. eapply fine_more; [exact ST|]. eapply fine_stop; eassumption.
  Qed.
End Rounds.

(** ** A receiver that crashes *)

Lemma wait_frame_crash defs o : forall fuel buf l, ReadFrame_dev fuel defs wait_read buf l = Some Panic ->
  ReadFrame_dev fuel defs wire_read buf (l, o) = Some Panic.
Proof.
  induction fuel as [|fuel IH]; intros buf l; cbn [ReadFrame_dev]; [discriminate|].
  destruct l as [|x l]; cbn [wait_read wire_read fst snd io_bind done]; [discriminate|].
  destruct (ReadReport x) as [rep|e]; [|discriminate].
  destruct (Find defs _) as [rdf|e]; [|discriminate]. cbv zeta.
  destruct (_ <? 0)%Z; [reflexivity|].
  destruct (_ =? LinkControlDone)%N; [discriminate|].
  destruct (_ =? LinkControlMoreToFollow)%N; [apply IH|].
  destruct (_ =? N.lor _ _)%N; [apply IH|].
  destruct (_ =? LinkControlContinue)%N; [discriminate|apply IH].
Qed.

Lemma wait_replies_crash rt fuel defs spares cmds : usable defs -> forall mode l o n,
  write_replies rt (hid_transport fuel defs spares wait_read discard) mode cmds (l, n) = Some Panic ->
  write_replies rt (hid_transport fuel defs spares wire_read wire_write) mode cmds ((l, o), n) = Some Panic.
Proof.
  intros U. induction cmds as [|c cmds IH]; intros mode l o n; cbn [write_replies]; [discriminate|].
  destruct (MarshalCmd rt mode c) as [[mode' res]|]; cbn [io_bind]; [|reflexivity]. cbv zeta.
  destruct (WritePacket _ _) as [f x]. cbn [tp_WriteFrame hid_transport fst snd].
  rewrite (write_discard defs _ f U). destruct (wire_sent defs l o f U) as (o1 & E & _). rewrite E. cbn [io_bind done fst snd]. apply IH.
Qed.

Lemma wait_loop_crash {S} rt clock (g : DeviceGeneral S) defs spares : usable defs -> forall fuel fuel2 st l n o,
  processFrames_loop fuel rt std_registry clock g (hid_transport fuel2 defs spares wait_read discard) st (l, n) = Some Panic ->
  processFrames_loop fuel rt std_registry clock g (hid_transport fuel2 defs spares wire_read wire_write) st ((l, o), n) = Some Panic.
Proof.
  intros U. induction fuel as [|fuel IH]; intros fuel2 st l n o; [discriminate|].
  cbn [processFrames_loop tp_ReadFrame hid_transport fst snd].
  destruct (ReadFrame_dev fuel2 defs wait_read [] l) as [[[l' r]|]|] eqn:RF; cbn [io_bind done]; try discriminate.
  2: { now rewrite (wait_frame_crash defs o _ _ _ RF). }
  rewrite (wait_frame defs o _ _ _ _ _ RF). cbn [io_bind done]. destruct r as [fr|e].
  - unfold process_frame. destruct (frame_packets _ _ _ _) as [[[m1 evs]|]|]; cbn [io_bind]; try discriminate; [|reflexivity].
    destruct (handle_all std_registry clock g (inCmds evs) (sv_h st)) as [[h1 u]|]; cbn [io_bind]; [|reflexivity].
    destruct (write_replies rt (hid_transport fuel2 defs spares wait_read discard) m1 _ _) as [[[m2 w2]|]|] eqn:WR; cbn [io_bind done]; try discriminate.
    + destruct (wait_replies rt fuel2 defs spares _ U m1 l' o (Datatypes.S n) m2 w2 WR) as (-> & o' & W2).
      intros H. pose proof (IH _ _ _ _ o' H) as W3.
      lazymatch goal with |- context [write_replies ?a ?b ?c ?d ?e] => assert (E : write_replies a b c d e = done (m2, ((l', o'), Datatypes.S n))) by exact W2 end.
      rewrite E. cbn [io_bind done]. exact W3.
    + intros _. pose proof (wait_replies_crash rt fuel2 defs spares _ U m1 l' o (Datatypes.S n) WR) as W2.
      lazymatch goal with |- context [write_replies ?a ?b ?c ?d ?e] => assert (E : write_replies a b c d e = Some Panic) by exact W2 end.
      now rewrite E.
  - destruct e; [discriminate|apply IH..].
Qed.
