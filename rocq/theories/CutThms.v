(** Lemmas on recordings that were cut short. *)
From Coq Require Import ZifyBool ZifyNat ZifyN Lia.
From Verif Require Import Base BaseFacts Hid SpecHid HidThms Trace SpecTrace TraceFacts TraceThms TraceSessions Server SpecView SpecWire SpecEdit EditThms SpecRefuse RefuseThms SpecRefuseTrace RefuseTraceThms SpecCut.

Lemma lines_incoming ms texts : Forall2 line_of ms texts -> incoming texts (ins ms).
Proof.
  unfold ins, of_dir. induction 1 as [|m t ms texts L _ IH]; [constructor|]. pose proof (line_accepted m t L) as A.
  assert (D : dropped t t). { pose proof (dropCR_dropped t) as D. now rewrite (line_dropCR m t L) in D. }
  cbn [filter]. destruct (line_valid m t L) as [E|E]; rewrite E in *; cbn [N.eqb map].
  - eapply inc_in; eauto.
  - eapply inc_out; eauto.
Qed.

Lemma cut_text ms texts k : Forall2 line_of ms texts -> Forall (fun m => (len (msg_Data m) <= 21844)%N) ms -> k <= List.length (file_of texts) ->
  exists n rest lines extra, cut_after ms n extra /\ firstn k (file_of texts) = file_of (firstn n texts) ++ rest
    /\ List.length (file_of (firstn n texts)) <= k /\ (n < List.length ms -> k < List.length (file_of (firstn (S n) texts)))
    /\ is_text (firstn k (file_of texts)) lines /\ Forall (fun l => (len l <= 65535)%N) lines /\ incoming lines (ins (firstn n ms) ++ extra)
    /\ (k = List.length (file_of (firstn n texts)) -> rest = [] /\ extra = []).
Proof.
  intros F S K. destruct (cut_file texts k K) as (n & rest & N & E & L & NX & R).
  assert (List.length ms = List.length texts) as LEN by (eapply Forall2_len; eauto).
  pose proof (Forall2_firstn _ n _ _ F) as Fn. pose proof (Forall_firstn _ n _ S) as Sn.
  pose proof (lines_incoming _ _ Fn) as I.
  assert (SH : Forall (fun l => (len l <= 65535)%N) (firstn n texts)).
  { clear -Fn Sn. induction Fn as [|m t ms' texts' Lm _ IH]; constructor; inversion Sn; subst; auto. exact (proj1 (line_short m t Lm) ltac:(assumption)). }
  assert (KL : k = List.length (file_of (firstn n texts)) -> rest = []).
  { intros X. apply (f_equal (@List.length _)) in E. rewrite app_length, firstn_length in E. destruct rest; [reflexivity|]. cbn [List.length] in E. lia. }
  destruct R as [->|(t & j & Et & J & ->)].
  - exists n, [], (firstn n texts), []. split; [split; [lia|left; reflexivity]|]. split; [exact E|]. split; [exact L|]. split; [intros; apply NX; lia|].
    split; [|split; [exact SH|split; [rewrite app_nil_r; exact I|auto]]]. split; [exact (Forall2_line_no_nl _ _ Fn)|]. left. now rewrite E, app_nil_r.
  - destruct (Forall2_nth _ _ _ F _ _ Et) as (m & Em & Lm).
    destruct (line_no_nl _ _ Lm) as [NN NC].
    assert (incl (firstn j t) t) as INC.
    { intros x X. rewrite <- (firstn_skipn j t). apply in_or_app. auto. }
    assert (NEj : firstn j t <> []).
    { intros Q. apply (f_equal (@List.length _)) in Q. rewrite firstn_length in Q. cbn in Q. lia. }
    destruct (incoming_exists [firstn j t]) as (extra & IX).
    assert (RX : rest_of m extra).
    { inversion IX as [|l' ls' xs2 D2 H2|l' t2 data2 ls' xs2 D2 A2 H2|l' t2 data2 ls' xs2 D2 A2 H2|l' t2 ls' xs2 D2 N2 NA2 H2]; subst; inversion H2; subst; try constructor.
      pose proof (dropped_unique _ _ _ (dropCR_dropped (firstn j t)) D2) as Q.
      rewrite dropCR_plain in Q by (intros X; apply INC in X; auto). subst t2.
      destruct (cut_line m t j _ _ Lm A2) as (DI & ND & q & DQ). econstructor; eauto. }
    exists n, (firstn j t), (firstn n texts ++ [firstn j t]), extra.
    split; [split; [lia|right; eauto]|]. split; [exact E|]. split; [exact L|]. split; [intros; apply NX; lia|]. split; [|split; [|split]].
    + split; [|right; exists (firstn n texts), (firstn j t); auto]. apply Forall_app. split; [exact (Forall2_line_no_nl _ _ Fn)|]. repeat constructor. intros X. apply INC in X. auto.
    + apply Forall_app. split; [exact SH|]. repeat constructor.
      assert (St : short t). { apply (line_short m t Lm). rewrite Forall_forall in S. apply S. eapply nth_error_In; eauto. }
      unfold short, len in *. rewrite firstn_length. lia.
    + now apply incoming_app.
    + intros X. specialize (KL X). contradiction.
Qed.

(** ** Events *)

Lemma crossed_app a b : crossed (a ++ b) = crossed a ++ crossed b. Proof. apply flat_map_app. Qed.

Lemma crossed_split evs : forall n, n <= List.length (crossed evs) -> exists e1 e2, evs = e1 ++ e2 /\ firstn n (crossed evs) = crossed e1.
Proof.
  induction evs as [|e evs IH]; intros n L.
  - exists [], []. split; [reflexivity|]. now rewrite firstn_nil.
  - rewrite crossed_cons in *. rewrite app_length in L.
    assert (C : List.length (crossed [e]) <= 1) by (destruct e as [[[|] [|]]|[|]|]; cbn; lia).
    destruct n as [|n]; [exists [], (e :: evs); split; reflexivity|].
    assert (X : crossed [e] = [] \/ exists m, crossed [e] = [m]).
    { destruct (crossed [e]) as [|m [|]]; [left; reflexivity|right; eauto|cbn in C; lia]. }
    destruct X as [X|(m & X)]; rewrite X in *; cbn [app List.length] in *.
    + destruct (IH (S n) L) as (e1 & e2 & -> & Q). exists (e :: e1), e2. split; [reflexivity|]. rewrite crossed_cons, X. exact Q.
    + destruct (IH n ltac:(lia)) as (e1 & e2 & -> & Q). exists (e :: e1), e2. split; [reflexivity|]. rewrite crossed_cons, X. cbn [firstn app]. now rewrite Q.
Qed.

Lemma taken_sizes defs fs ws whole : tries defs fs ws whole -> forall p, In (Taken p) ws -> exists d, In d defs /\ List.length p = room d + 2.
Proof.
  assert (G : forall f rs r, segments defs true f rs -> In r rs -> exists d, In d defs /\ List.length (report_bytes r) = room d + 2).
  { intros f rs r G I. destruct (segments_shape _ _ _ _ G) as (_ & SH & _). rewrite Forall_forall in SH. destruct (SH _ I) as (d & D & _ & _ & L & _).
    exists d. split; [exact D|]. unfold report_bytes. cbn [List.length]. lia. }
  induction 1 as [|fs ws whole _ IH|f rs fs ws whole S _ IH|f a r b fs ws whole S _ IH]; intros p I.
  - destruct I.
  - exact (IH p I).
  - apply in_app_or in I as [I|I]; [|exact (IH p I)]. apply in_map_iff in I as (r & E & I). injection E as <-. exact (G _ _ _ S I).
  - apply in_app_or in I as [I|[I|I]]; [|discriminate I|exact (IH p I)]. apply in_map_iff in I as (x & E & I). injection E as <-.
    apply (G _ _ _ S). apply in_or_app. now left.
Qed.

Lemma session_readable {D} (dev : io_rw D) s evs s' defs fs whole : whole_or_error dev -> Forall (fun d => (def_Len d <= 21843)%Z) defs ->
  happens (as_chooser dev) s evs s' -> tries defs fs (writes evs) whole -> Forall readable (crossed evs).
Proof.
  intros [HR _] LN H T. pose proof (taken_sizes _ _ _ _ T) as TS. rewrite Forall_forall in LN. clear T fs whole.
  assert (G : forall p, In (Taken p) evs -> (len p <= 21844)%N).
  { intros p I. destruct (TS p) as (d & D1 & D2); [apply filter_In; auto|]. specialize (LN _ D1). unfold room in D2.
    unfold len. lia. }
  clear TS. induction H as [d|d evs s' _ IH|d p evs s' _ _ IH|d p evs s' _ _ IH]; [constructor|..]; rewrite crossed_cons; apply Forall_app; (split; [|apply IH; intros p' I'; apply G; now right]).
  - cbn [as_chooser ch_sends]. destruct (rw_read dev d maxRawSize) as [d' [[|b bs] [e|]]] eqn:E; cbn [snd crossed flat_map app]; try constructor; [|constructor].
    split; [split; [left; reflexivity|discriminate]|]. apply HR in E. unfold maxRawSize in E. cbn [msg_Data]. unfold len. lia.
  - destruct p as [|b p]; cbn [crossed flat_map app]; constructor; [|constructor]. split; [split; [right; reflexivity|discriminate]|].
    exact (G _ ltac:(left; reflexivity)).
  - constructor.
Qed.

Lemma clean_ins evs : Forall (fun x => snd x = None /\ fst x <> [] /\ List.length (fst x) <= maxRawSize) (reads evs) -> map as_read (ins (crossed evs)) = reads evs.
Proof.
  unfold reads, crossed, ins, of_dir. induction evs as [|[[[|b bs] [e|]]|[|p ps]|p] evs IH]; cbn [flat_map app filter map msg_Dir]; intros N; auto;
    try (inversion N as [|? ? (A & B & C) N']; subst; cbn [fst snd] in *; congruence).
  inversion N as [|? ? (A & B & C) N']; subst. cbn [fst] in C. cbn [N.eqb DirIn map as_read msg_Data app]. rewrite (IH N'), firstn_all2 by exact C. reflexivity.
Qed.
