(** Lemmas on recording to any file. *)
From Coq Require Import ZifyBool ZifyNat ZifyN Lia.
From Verif Require Import Mem Base BaseFacts Hid SpecHid HidThms Trace SpecTrace TraceThms TraceSessions Server SpecPlug SpecTransport SpecWire SpecRecord.

Section Related.
  Context {D1 D2 : Type} (Q : D1 -> D2 -> Prop).
  Context (rd1 : D1 -> io (D1 * raw_read)) (rd2 : D2 -> io (D2 * raw_read)).
  Context (wd1 : D1 -> bytes -> outcome (D1 * (nat * option goerr))) (wd2 : D2 -> bytes -> outcome (D2 * (nat * option goerr))).
  Context (RD : forall d1 d2, Q d1 d2 -> compare (rd1 d1) (rd2 d2) (fun x y => Q (fst x) (fst y) /\ snd x = snd y)).
  Context (WD : forall d1 d2 p, Q d1 d2 -> compare (Some (wd1 d1 p)) (Some (wd2 d2 p)) (fun x y => Q (fst x) (fst y) /\ snd x = snd y)).

  Lemma ReadFrame_related defs : forall fuel buf d1 d2, Q d1 d2 ->
    compare (ReadFrame_dev fuel defs rd1 buf d1) (ReadFrame_dev fuel defs rd2 buf d2) (fun x y => Q (fst x) (fst y) /\ snd x = snd y).
  Proof using RD.
    induction fuel as [|fuel IH]; intros buf d1 d2 q; [exact I|]. cbn [ReadFrame_dev]. specialize (RD d1 d2 q). unfold compare in RD.
    destruct (rd1 d1) as [[[e1 g1]|]|], (rd2 d2) as [[[e2 g2]|]|]; try contradiction; try exact I. cbn [io_bind fst snd] in *. destruct RD as [q' <-]. clear RD.
    destruct (ReadReport g1) as [r|e]; [|cbn; auto]. destruct (Find defs _) as [rdf|e]; [|cbn; auto]. cbv zeta.
    destruct (_ <? 0)%Z; [exact I|]. destruct (_ =? LinkControlDone)%N; [cbn; auto|]. destruct (_ =? LinkControlMoreToFollow)%N; [now apply IH|].
    destruct (_ =? N.lor LinkControlContinue LinkControlMoreToFollow)%N; [now apply IH|]. destruct (_ =? LinkControlContinue)%N; [cbn; auto|now apply IH].
  Qed.

  Definition Qo (a : outcome D1) (b : outcome D2) : Prop := match a, b with Ret x, Ret y => Q x y | Panic, Panic => True | _, _ => False end.

  Lemma WriteFrame_related defs data : forall fuel s1 s2 o n, Qo s1 s2 ->
    compare (WriteFrame_loop fuel defs (dev_WriteReport wd1) s1 data o n) (WriteFrame_loop fuel defs (dev_WriteReport wd2) s2 data o n)
      (fun x y => Qo (fst x) (fst y) /\ snd x = snd y).
  Proof using WD.
    assert (W : forall s1 s2 r, Qo s1 s2 -> Qo (fst (dev_WriteReport wd1 s1 r)) (fst (dev_WriteReport wd2 s2 r)) /\ snd (dev_WriteReport wd1 s1 r) = snd (dev_WriteReport wd2 s2 r)).
    { intros s1 s2 r q. unfold dev_WriteReport, WriteReport, raw_Write. destruct s1 as [s1|], s2 as [s2|]; try contradiction; cbn [bind].
      - pose proof (WD s1 s2 (rep_ID r :: rep_LinkControl r :: rep_Data r) q) as X. unfold compare in X.
        destruct (wd1 s1 _) as [[t1 [m1 e1]]|], (wd2 s2 _) as [[t2 [m2 e2]]|]; try contradiction; cbn [fst snd] in *.
        + destruct X as [q' X]. injection X as <- <-. destruct (Nat.ltb _ m1); [cbn; auto|]. destruct e1; cbn; auto.
        + destruct (Nat.ltb _ 0); cbn; auto.
      - destruct (Nat.ltb _ 0); cbn; auto. }
    induction fuel as [|fuel IH]; intros s1 s2 o n q; cbn [WriteFrame_loop]; (destruct (n <=? 0)%Z; [cbn; auto|]); [exact I|].
    destruct (Pick defs n ReportDirAccIn) as [rdf|e]; [|cbn; auto]. cbv zeta. destruct (MaxPayload rdf <? 0)%Z; [exact I|].
    match goal with |- context [dev_WriteReport wd1 s1 ?r] => destruct (W s1 s2 r q) as [q' E]; destruct (dev_WriteReport wd1 s1 r) as [t1 e1], (dev_WriteReport wd2 s2 r) as [t2 e2] end.
    cbn [fst snd] in *. subst e2. destruct e1 as [e|]; [cbn; auto|]. now apply IH.
  Qed.

  Lemma related_carries fuel defs spares : carry_alike (fun w1 w2 => Q (fst w1) (fst w2) /\ snd w1 = snd w2)
    (hid_transport fuel defs spares rd1 wd1) (hid_transport fuel defs spares rd2 wd2).
  Proof using RD WD.
    constructor.
    - intros [d1 n] [d2 n2] [q N]. cbn [fst snd] in *. subst n2. cbn [hid_transport tp_ReadFrame fst snd]. pose proof (ReadFrame_related defs fuel [] d1 d2 q) as K. unfold compare in K.
      destruct (ReadFrame_dev fuel defs rd1 [] d1) as [[[e1 r1]|]|], (ReadFrame_dev fuel defs rd2 [] d2) as [[[e2 r2]|]|]; try contradiction; try exact I.
      cbn in *. destruct K as [q' <-]. split; [auto|]. destruct r1; [left; reflexivity|split; intros X; exact X].
    - intros [d1 n] [d2 n2] f [q N]. cbn [fst snd] in *. subst n2. cbn [hid_transport tp_WriteFrame fst snd]. unfold WriteFrame_dev, WriteFrame.
      pose proof (WriteFrame_related defs f (List.length f) (Ret d1) (Ret d2) 0%Z (Z.of_nat (List.length f)) q) as K. unfold compare in K.
      destruct (WriteFrame_loop (List.length f) defs (dev_WriteReport wd1) (Ret d1) f 0 _) as [[[o1 e1]|]|],
        (WriteFrame_loop (List.length f) defs (dev_WriteReport wd2) (Ret d2) f 0 _) as [[[o2 e2]|]|]; try contradiction; try exact I.
      cbn [fst snd] in K. destruct K as [K <-]. destruct o1 as [o1|], o2 as [o2|]; try contradiction; cbn in *; auto.
  Qed.

  Lemma ReadFrame_mem_related defs pol : forall fuel m d1 d2, Q d1 d2 ->
    compare (ReadFrame_mem_loop fuel defs pol rd1 m d1) (ReadFrame_mem_loop fuel defs pol rd2 m d2)
      (fun x y => (fst (fst x) = fst (fst y) /\ Q (snd (fst x)) (snd (fst y))) /\ snd x = snd y).
  Proof using RD.
    induction fuel as [|fuel IH]; intros m d1 d2 q; [exact I|]. cbn [ReadFrame_mem_loop]. specialize (RD d1 d2 q). unfold compare in RD.
    destruct (rd1 d1) as [[[e1 g1]|]|], (rd2 d2) as [[[e2 g2]|]|]; try contradiction; try exact I. cbn [io_bind fst snd] in *. destruct RD as [q' <-]. clear RD.
    destruct (ReadReport_mem _ _ g1) as [h1 rep]. destruct rep as [r|e]; [|cbn; auto]. destruct (Find defs _) as [rdf|e]; [|cbn; auto]. cbv zeta.
    destruct (_ <? 0)%Z; [exact I|]. destruct (_ =? LinkControlDone)%N; [cbn; auto|]. destruct (_ =? LinkControlMoreToFollow)%N; [now apply IH|].
    destruct (_ =? N.lor LinkControlContinue LinkControlMoreToFollow)%N; [now apply IH|]. destruct (_ =? LinkControlContinue)%N; [cbn; auto|now apply IH].
  Qed.

  Lemma related_carries_mem fuel defs pol : carry_alike (fun w1 w2 => fst w1 = fst w2 /\ Q (snd w1) (snd w2))
    (mem_transport fuel defs pol rd1 wd1) (mem_transport fuel defs pol rd2 wd2).
  Proof using RD WD.
    constructor.
    - intros [m d1] [m2 d2] [N q]. cbn [fst snd] in *. subst m2. cbn [mem_transport tp_ReadFrame fst snd]. unfold ReadFrame_mem.
      pose proof (ReadFrame_mem_related defs pol fuel (mkMem (m_heap m) (buf_Reset (m_buf m)) (m_raw m) (m_cert m)) d1 d2 q) as K. unfold compare in K.
      destruct (ReadFrame_mem_loop fuel defs pol rd1 _ d1) as [[[[m1 e1] r1]|]|], (ReadFrame_mem_loop fuel defs pol rd2 _ d2) as [[[[m2 e2] r2]|]|]; try contradiction; try exact I.
      cbn in *. destruct K as [[<- q'] <-]. split; [auto|]. destruct r1; [left; reflexivity|split; intros X; exact X].
    - intros [m d1] [m2 d2] f [N q]. cbn [fst snd] in *. subst m2. cbn [mem_transport tp_WriteFrame fst snd]. unfold WriteFrame_dev, WriteFrame.
      pose proof (WriteFrame_related defs f (List.length f) (Ret d1) (Ret d2) 0%Z (Z.of_nat (List.length f)) q) as K. unfold compare in K.
      destruct (WriteFrame_loop (List.length f) defs (dev_WriteReport wd1) (Ret d1) f 0 _) as [[[o1 e1]|]|],
        (WriteFrame_loop (List.length f) defs (dev_WriteReport wd2) (Ret d2) f 0 _) as [[[o2 e2]|]|]; try contradiction; try exact I.
      cbn [fst snd] in K. destruct K as [K <-]. destruct o1 as [o1|], o2 as [o2|]; try contradiction; cbn in *; auto.
  Qed.
End Related.

(** ** The tracer *)

Section Tracer.
  Context {D : Type} (dev : io_rw D) (H : honest dev).

  Lemma tracer_reads {T} (tw : io_write T) s t s' b e : rw_read dev s maxRawSize = (s', (b, e)) ->
    tracer_Read tw dev (s, t) maxRawSize = Ret ((s', match e with None => fst (WriteMsg tw t (mkMsg DirIn 0 b)) | Some _ => t end), (b, e)).
  Proof using H.
    intros E. unfold tracer_Read. rewrite E. destruct e as [e|]; [reflexivity|]. pose proof (proj1 H _ _ _ _ E).
    destruct (Nat.ltb_spec maxRawSize (List.length b)); [lia|]. destruct (WriteMsg tw t _). reflexivity.
  Qed.

  Lemma tracer_writes {T} (tw : io_write T) s t p s' n e : rw_write dev s p = (s', (n, e)) ->
    tracer_Write tw dev (s, t) p = Ret ((s', match e with None => fst (WriteMsg tw t (mkMsg DirOut 0 (firstn n p))) | Some _ => t end), (n, e)).
  Proof using H.
    intros E. unfold tracer_Write. rewrite E. destruct e as [e|]; [reflexivity|]. pose proof (proj2 H _ _ _ _ E).
    destruct (Nat.ltb_spec (List.length p) n); [lia|]. destruct (WriteMsg tw t _). reflexivity.
  Qed.

  Lemma tracer_reads_as {T} (tw : io_write T) (d1 : D * T) d2 : fst d1 = d2 ->
    compare (traced_read tw dev d1) (plain_read dev d2) (fun x y => fst (fst x) = fst y /\ snd x = snd y).
  Proof using H.
    destruct d1 as [s t]. cbn [fst]. intros <-. unfold traced_read, plain_read, done. destruct (rw_read dev s maxRawSize) as [s' [b e]] eqn:E. rewrite (tracer_reads tw s t s' b e E). cbn. auto.
  Qed.

  Lemma tracer_writes_as {T} (tw : io_write T) (d1 : D * T) d2 p : fst d1 = d2 ->
    compare (Some (tracer_Write tw dev d1 p)) (Some (plain_write dev d2 p)) (fun x y => fst (fst x) = fst y /\ snd x = snd y).
  Proof using H.
    destruct d1 as [s t]. cbn [fst]. intros <-. unfold plain_write. destruct (rw_write dev s p) as [s' [n e]] eqn:E. rewrite (tracer_writes tw s t p s' n e E). cbn. auto.
  Qed.

  Lemma plain_carries_mem {T} (tw : io_write T) fuel defs pol : carry_alike (fun w1 w2 => fst w1 = fst w2 /\ fst (snd w1) = snd w2)
    (mem_transport fuel defs pol (traced_read tw dev) (tracer_Write tw dev)) (mem_transport fuel defs pol (plain_read dev) (plain_write dev)).
  Proof using H.
    exact (related_carries_mem (fun (d1 : D * T) (d2 : D) => fst d1 = d2) _ _ _ _ (tracer_reads_as tw) (tracer_writes_as tw) fuel defs pol).
  Qed.

  Lemma plain_carries {T} (tw : io_write T) fuel defs spares : carry_alike (fun w1 w2 => fst (fst w1) = fst w2 /\ snd w1 = snd w2)
    (hid_transport fuel defs spares (traced_read tw dev) (tracer_Write tw dev)) (hid_transport fuel defs spares (plain_read dev) (plain_write dev)).
  Proof using H.
    exact (related_carries (fun (d1 : D * T) (d2 : D) => fst d1 = d2) _ _ _ _ (tracer_reads_as tw) (tracer_writes_as tw) fuel defs spares).
  Qed.

  (** Two writers that keep related files. *)
  Lemma files_carry {T1 T2} (tw1 : io_write T1) (tw2 : io_write T2) (R : T1 -> T2 -> Prop) fuel defs spares :
    (forall t1 t2 p, R t1 t2 -> R (fst (tw1 t1 p)) (fst (tw2 t2 p))) ->
    carry_alike (fun w1 w2 => (fst (fst w1) = fst (fst w2) /\ R (snd (fst w1)) (snd (fst w2))) /\ snd w1 = snd w2)
      (hid_transport fuel defs spares (traced_read tw1 dev) (tracer_Write tw1 dev)) (hid_transport fuel defs spares (traced_read tw2 dev) (tracer_Write tw2 dev)).
  Proof using H.
    intros K. assert (WM : forall m t1 t2, R t1 t2 -> R (fst (WriteMsg tw1 t1 m)) (fst (WriteMsg tw2 t2 m))).
    { intros m t1 t2 r. unfold WriteMsg. destruct (Msg_MarshalText m) as [t|e]; [|exact r]. specialize (K t1 t2 (t ++ [NL]) r).
      destruct (tw1 t1 _) as [? [? ?]], (tw2 t2 _) as [? [? ?]]. exact K. }
    apply (related_carries (fun (d1 : D * T1) (d2 : D * T2) => fst d1 = fst d2 /\ R (snd d1) (snd d2))).
    - intros [s t1] [s2 t2] [E r]. cbn [fst snd] in *. subst s2. unfold traced_read. destruct (rw_read dev s maxRawSize) as [s' [b e]] eqn:E.
      rewrite (tracer_reads tw1 s t1 s' b e E), (tracer_reads tw2 s t2 s' b e E). cbn. split; [split; [reflexivity|]|reflexivity]. destruct e; auto.
    - intros [s t1] [s2 t2] p [E r]. cbn [fst snd] in *. subst s2. destruct (rw_write dev s p) as [s' [n e]] eqn:E.
      rewrite (tracer_writes tw1 s t1 p s' n e E), (tracer_writes tw2 s t2 p s' n e E). cbn. split; [split; [reflexivity|]|reflexivity]. destruct e; auto.
  Qed.
End Tracer.

Lemma disk_keeps cap t1 t2 p : t1 = firstn cap t2 -> fst (disk cap t1 p) = firstn cap (fst (append_file t2 p)).
Proof.
  intros ->. unfold disk, append_file. cbn [fst]. rewrite firstn_app, firstn_length. f_equal.
  destruct (Nat.le_ge_cases cap (List.length t2)) as [L|L].
  - rewrite Nat.min_l by exact L. replace (cap - cap) with 0 by lia. replace (cap - List.length t2) with 0 by lia. reflexivity.
  - now rewrite Nat.min_r by exact L.
Qed.
