(** How the send mode comes to rest. *)
From Coq Require Import ZifyBool ZifyNat ZifyN Lia.
From Verif Require Import Base BaseFacts GoTypes Types Payload Lingo Command Handlers Packet Hid SpecHid HidThms Trace SpecTrace
  TraceFacts TraceThms TraceSessions Server ServerFacts SessionThms Send SpecSend SendThms.
#[local] Opaque std_registry.

Definition no_end (l : list raw_read) : Prop := Forall (fun x => ~ ends_device x) l.

(** One frame from a list of reads: it takes reads that are no end of the device, or it fails with
    the end of the device, or it waits for more; what comes behind the list does not matter. *)
Definition frame_fact (defs : list ReportDef) (buf : bytes) (l : list raw_read) (r : io (list raw_read * (bytes + goerr))) : Prop :=
  match r with
  | None => no_end l
      /\ forall x fuel, ends_device x -> List.length l < fuel ->
           ReadFrame_dev fuel defs wait_read buf (l ++ [x]) = Some (Ret ([], inr EOF))
  | Some (Ret (l', r)) =>
      (r = inr EOF -> ~ no_end l)
      /\ (r <> inr EOF -> List.length l' < List.length l /\ (no_end l <-> no_end l')
            /\ forall x fuel, List.length l < fuel ->
                 ReadFrame_dev fuel defs wait_read buf (l ++ [x]) = Some (Ret (l' ++ [x], r)))
  | Some Panic => True
  end.

Lemma read_list defs : forall fuel buf l, List.length l < fuel ->
  frame_fact defs buf l (ReadFrame_dev fuel defs wait_read buf l).
Proof.
  induction fuel as [|fuel IH]; intros buf l L; [lia|]. cbn [ReadFrame_dev].
  destruct l as [|x l]; cbn [wait_read io_bind done].
  { split; [constructor|]. intros [b e] [|fuel'] E F; cbn [List.length] in F; [lia|].
    unfold ends_device in E. cbn [snd] in E. subst e. reflexivity. }
  cbn [List.length] in L.
  destruct (ReadReport x) as [report|e] eqn:RR.
  2: { assert (ER : e = EOF <-> ends_device x).
       { destruct x as [b o]. unfold ends_device. cbn [snd]. unfold ReadReport in RR. destruct o as [e0|].
         - injection RR as <-. split; congruence.
         - destruct (firstn maxRawSize b) as [|? [|? [|? ?]]]; try discriminate RR; injection RR as <-; split; discriminate. }
       split.
       - intros E N. injection E as ->. inversion N as [|? ? N1 N2]; subst. apply N1. now apply ER.
       - intros NE. split; [cbn [List.length]; lia|]. split.
         + split; [intros N; now inversion N|]. intros N. constructor; [|exact N]. intros E. apply NE. f_equal. now apply ER.
         + intros y [|f] F; [lia|]. cbn [app ReadFrame_dev wait_read io_bind done]. now rewrite RR. }
  assert (NE : ~ ends_device x).
  { intros E. destruct x as [b o]. unfold ends_device in E. cbn [snd] in E. subst o. discriminate RR. }
  assert (CC : no_end (x :: l) <-> no_end l).
  { split; [intros N; now inversion N|]. intros N. now constructor. }
  assert (ST : forall r, r <> inr EOF ->
     (forall y f, ReadFrame_dev (S f) defs wait_read buf ((x :: l) ++ [y]) = Some (Ret (l ++ [y], r))) ->
     frame_fact defs buf (x :: l) (done (l, r))).
  { intros r NR H. split; [intros E; contradiction|]. intros _. split; [cbn [List.length]; lia|]. split; [exact CC|].
    intros y [|f] F; [lia|]. apply H. }
  assert (GO : forall buf', 
     (forall y f, ReadFrame_dev (S f) defs wait_read buf ((x :: l) ++ [y]) = ReadFrame_dev f defs wait_read buf' (l ++ [y])) ->
     frame_fact defs buf (x :: l) (ReadFrame_dev fuel defs wait_read buf' l)).
  { intros buf' H. specialize (IH buf' l ltac:(lia)). unfold frame_fact in *.
    destruct (ReadFrame_dev fuel defs wait_read buf' l) as [[[l' r]|]|]; [|exact I|].
    - destruct IH as [A B]. split; [rewrite CC; exact A|]. intros NR. destruct (B NR) as (B1 & B2 & B3).
      split; [cbn [List.length]; lia|]. split; [rewrite CC; exact B2|]. intros y [|f] F; cbn [List.length] in F; [lia|].
      rewrite H. apply B3. lia.
    - destruct IH as [A B]. split; [now apply CC|]. intros y [|f] E F; cbn [List.length] in F; [lia|]. rewrite H. apply B; [exact E|lia]. }
  destruct (Find defs _) as [d|e] eqn:FD.
  2: { pose proof (find_err _ _ _ FD). subst e.
       apply ST; [discriminate|]. intros y f. cbn [app ReadFrame_dev wait_read io_bind done]. now rewrite RR, FD. }
  cbv zeta. destruct (_ <? 0)%Z eqn:NG; [exact I|].
  destruct (_ =? LinkControlDone)%N eqn:E1.
  { apply ST; [discriminate|]. intros y f. cbn [app ReadFrame_dev wait_read io_bind done]. now rewrite RR, FD, NG, E1. }
  destruct (_ =? LinkControlMoreToFollow)%N eqn:E2.
  { apply GO. intros y f. cbn [app ReadFrame_dev wait_read io_bind done]. now rewrite RR, FD, NG, E1, E2. }
  destruct (_ =? N.lor _ _)%N eqn:E3.
  { apply GO. intros y f. cbn [app ReadFrame_dev wait_read io_bind done]. now rewrite RR, FD, NG, E1, E2, E3. }
  destruct (_ =? LinkControlContinue)%N eqn:E4.
  { apply ST; [discriminate|]. intros y f. cbn [app ReadFrame_dev wait_read io_bind done]. now rewrite RR, FD, NG, E1, E2, E3, E4. }
  apply GO. intros y f. cbn [app ReadFrame_dev wait_read io_bind done]. now rewrite RR, FD, NG, E1, E2, E3, E4.
Qed.

Section Ends.
  Context {S : Type} (rt : bool) (clock : nat -> datetime) (g : DeviceGeneral S) (defs : list ReportDef) (spares : nat -> bytes)
          (U : usable defs).

  Notation loop fuel fuel2 := (processFrames_loop fuel rt std_registry clock g (hid_transport fuel2 defs spares wait_read discard)).

  (** The receiver on a list of reads. *)
  Lemma loop_list : forall fuel fuel2 l st n, List.length l < fuel -> List.length l < fuel2 ->
    match loop fuel fuel2 st (l, n) with
    | None => no_end l
        /\ forall x fuel' fuel2', ends_device x -> List.length l < fuel' -> List.length l < fuel2' ->
             exists st' w, loop fuel' fuel2' st (l ++ [x], n) = Some (Ret (st', w))
    | Some (Ret _) => ~ no_end l
    | Some Panic => True
    end.
  Proof.
    induction fuel as [|fuel IH]; intros fuel2 l st n L L2; [lia|].
    cbn [processFrames_loop tp_ReadFrame hid_transport fst snd].
    pose proof (read_list defs fuel2 [] l L2) as F.
    destruct (ReadFrame_dev fuel2 defs wait_read [] l) as [[[l' r]|]|]; cbn [io_bind done frame_fact] in *; [|exact I|].
    2: { destruct F as [N E]. split; [exact N|]. intros x [|fuel'] fuel2' X A B; [lia|].
         cbn [processFrames_loop tp_ReadFrame hid_transport fst snd]. rewrite (E x fuel2' X B). cbn [io_bind done].
         eexists _, _. reflexivity. }
    destruct F as [FE FN]. destruct r as [fr|e].
    - destruct (FN ltac:(discriminate)) as (LL & NN & EX).
      unfold process_frame at 1.
      destruct (frame_packets_run rt (sv_mode st) (mkSlice fr (spares n))) as [(m1 & evs & ps & FP & _)|[FP _]]; rewrite FP; cbn [io_bind]; [|exact I].
      destruct (handle_all std_registry clock g (inCmds evs) (sv_h st)) as [[h1 u]|] eqn:HA; cbn [io_bind]; [|exact I].
      pose proof (write_discards rt fuel2 defs spares wait_read (outCmds (h_log (sv_h st)) (h_log h1)) U m1 (l', Datatypes.S n)) as W.
      destruct (write_replies rt (hid_transport fuel2 defs spares wait_read discard) m1 _ _) as [[[m2 w2]|]|] eqn:WR; cbn [io_bind done];
        [|exact I|contradiction].
      subst w2. specialize (IH fuel2 l' (mkServer m2 h1) (Datatypes.S n) ltac:(lia) ltac:(lia)).
      destruct (loop fuel fuel2 (mkServer m2 h1) (l', Datatypes.S n)) as [[?|]|]; [rewrite NN; exact IH|exact I|].
      destruct IH as [A B]. split; [now apply NN|]. intros x [|fuel'] fuel2' X A1 B1; [lia|].
      cbn [processFrames_loop tp_ReadFrame hid_transport fst snd]. rewrite (EX x fuel2' B1). cbn [io_bind done].
      unfold process_frame. rewrite FP. cbn [io_bind]. rewrite HA. cbn [io_bind].
      assert (W2 : write_replies rt (hid_transport fuel2' defs spares wait_read discard) m1
                (outCmds (h_log (sv_h st)) (h_log h1)) (l' ++ [x], Datatypes.S n) = Some (Ret (m2, (l' ++ [x], Datatypes.S n)))).
      { clear -WR U. revert m1 WR. induction (outCmds (h_log (sv_h st)) (h_log h1)) as [|c cs IHc]; intros m1 WR; cbn [write_replies] in *.
        - injection WR as ->. reflexivity.
        - destruct (MarshalCmd rt m1 c) as [[m3 res]|]; cbn [io_bind] in *; [|discriminate].
          destruct (WritePacket NewPacketWriter match res with Ok b => b | Err _ => [] end) as [f er].
          cbn [tp_WriteFrame hid_transport fst snd] in *.
          rewrite (write_discard defs _ f U) in WR. rewrite (write_discard defs _ f U). cbn [io_bind done fst snd] in *.
          now apply IHc. }
      rewrite W2. cbn [io_bind done]. apply B; [exact X|lia|lia].
    - assert (GO : e <> EOF ->
        match loop fuel fuel2 st (l', Datatypes.S n) with
        | None => no_end l
           /\ forall x fuel' fuel2', ends_device x -> List.length l < fuel' -> List.length l < fuel2' ->
                exists st' w, loop fuel' fuel2' st (l ++ [x], n) = Some (Ret (st', w))
        | Some (Ret _) => ~ no_end l
        | Some Panic => True
        end).
      { intros NE. destruct (FN ltac:(congruence)) as (LL & NN & EX).
        specialize (IH fuel2 l' st (Datatypes.S n) ltac:(lia) ltac:(lia)).
        destruct (loop fuel fuel2 st (l', Datatypes.S n)) as [[?|]|]; [rewrite NN; exact IH|exact I|].
        destruct IH as [A B]. split; [now apply NN|]. intros x [|fuel'] fuel2' X A1 B1; [lia|].
        cbn [processFrames_loop tp_ReadFrame hid_transport fst snd]. rewrite (EX x fuel2' B1). cbn [io_bind done].
        destruct e; [now elim NE|..]; (apply B; [exact X|lia|lia]). }
      destruct e; [now apply FE|apply GO; discriminate..].
  Qed.

  Variable h : hstate S.
  Notation rcv := (receiver rt std_registry clock g defs spares h).

  Lemma rcv_none l : rcv l = None -> no_end l /\ forall x, ends_device x -> exists st, rcv (l ++ [x]) = done st.
  Proof.
    unfold receiver at 1, processFrames. intros H.
    pose proof (loop_list (Datatypes.S (List.length l)) (Datatypes.S (List.length l)) l (mkServer false h) 0 ltac:(lia) ltac:(lia)) as F.
    destruct (processFrames_loop _ _ _ _ _ _ _ _) as [[[st w]|]|]; cbn [io_bind done] in H; try discriminate.
    destruct F as [A B]. split; [exact A|]. intros x X. unfold receiver, processFrames.
    destruct (B x (Datatypes.S (List.length (l ++ [x]))) (Datatypes.S (List.length (l ++ [x]))) X) as (st & w & ->);
      [rewrite app_length; cbn [List.length]; lia..|]. exists st. reflexivity.
  Qed.

  Lemma rcv_done l st : rcv l = done st -> ~ no_end l.
  Proof.
    unfold receiver, processFrames. intros H.
    pose proof (loop_list (Datatypes.S (List.length l)) (Datatypes.S (List.length l)) l (mkServer false h) 0 ltac:(lia) ltac:(lia)) as F.
    destruct (processFrames_loop _ _ _ _ _ _ _ _) as [[[st1 w]|]|]; cbn [io_bind done] in H; try discriminate. exact F.
  Qed.

  Context {D : Type} (rd : D -> io (D * raw_read)) (wd : D -> bytes -> outcome (D * (nat * option goerr))).
  Notation step := (send_step rt std_registry clock g defs spares h rd wd).
  Notation steps := (send_steps rt std_registry clock g defs spares h rd wd).

  (** Reads are only taken by a receiver that waits for them. *)
  Lemma got_waits content fin d s : steps (send_start content fin d) s ->
    sn_got s = [] \/ exists b x, sn_got s = b ++ [x] /\ rcv b = None.
  Proof.
    intros H. remember (send_start content fin d) as s0 eqn:E0. induction H as [s|s s1 s' H IH H1].
    - subst s. now left.
    - specialize (IH E0). revert IH. destruct H1 as [r d0 got r' d' b NP E|r b d0 got d' x NP E]; cbn [sn_got]; intros IH; [exact IH|].
      right. exists got, x. split; [reflexivity|exact NP].
  Qed.

  Lemma no_end_app a b : no_end (a ++ b) <-> no_end a /\ no_end b.
  Proof. apply Forall_app. Qed.

  Lemma ended_iff content fin d s : steps (send_start content fin d) s ->
    ((exists st, rcv (sn_got s) = done st) <-> exists x, In x (sn_got s) /\ ends_device x)
    /\ (forall x a b, sn_got s = a ++ x :: b -> ends_device x -> b = []).
  Proof.
    intros H. destruct (got_waits _ _ _ _ H) as [E|(b & x & E & N)]; rewrite E.
    - split.
      + split; [|intros (x & [] & _)]. intros (st & R). exfalso. apply (rcv_done _ _ R). constructor.
      + intros x [|? ?] b EQ; discriminate EQ.
    - destruct (rcv_none _ N) as [NE NX]. split.
      + split.
        * intros (st & R). exists x. split; [apply in_elt|].
          destruct x as [dd o]. unfold ends_device. cbn [snd].
          assert (Q : ends_device (dd, o) \/ ~ ends_device (dd, o)).
          { unfold ends_device. cbn [snd]. destruct o as [[]|]; [left; reflexivity|right; discriminate..]. }
          destruct Q as [Q|Q]; [exact Q|]. exfalso. apply (rcv_done _ _ R). apply no_end_app. split; [exact NE|].
          constructor; [exact Q|constructor].
        * intros (y & I & Y). apply in_app_or in I as [I|[->|[]]]; [|now apply NX].
          exfalso. unfold no_end in NE. rewrite Forall_forall in NE. exact (NE _ I Y).
      + intros y a c EQ Y. destruct c as [|z c _] using rev_ind; [reflexivity|]. exfalso.
        rewrite app_comm_cons, app_assoc in EQ. apply app_inj_tail in EQ as [-> _].
        apply no_end_app in NE as [_ NE]. inversion NE. contradiction.
  Qed.

  Lemma rest_iff s : orderly wd ->
    (forall s', ~ step s s') <->
    rcv (sn_got s) = Some Panic
    \/ sn_sending s = false /\ (exists st, rcv (sn_got s) = done st)
    \/ sn_sending s = false /\ rcv (sn_got s) = None /\ (forall r, rd (sn_dev s) <> done r).
  Proof.
    intros O. destruct s as [r b d got]. cbn [sn_got sn_sending sn_dev].
    assert (SND : forall got0, rcv got0 <> Some Panic -> exists s', step (mkSend r true d got0) s').
    { intros got0 NP. destruct (send_round wd r d) as [[_ (p & P)]|[(r1 & X & _)|(r1 & d1 & p & x & X & _)]].
      - exfalso. destruct (O d p) as (d' & m & e & W & LE). rewrite W in P.
        destruct P as [P|(d2 & m2 & e2 & P & LT)]; [discriminate|]. injection P as <- <- <-. lia.
      - eexists. now apply step_send with (1 := NP) (2 := X).
      - eexists. now apply step_send with (1 := NP) (2 := X). }
    split.
    - intros NS. destruct (rcv got) as [[st|]|] eqn:R; [|now left|].
      + right. left. split; [|exists st; reflexivity]. destruct b; [|reflexivity].
        destruct (SND got ltac:(congruence)) as (s' & ST). now elim (NS s').
      + right. right. split.
        * destruct b; [|reflexivity]. destruct (SND got ltac:(congruence)) as (s' & ST). now elim (NS s').
        * split; [reflexivity|]. intros [d' x] E. apply (NS (mkSend r b d' (got ++ [x]))). now apply step_receive.
    - intros C s' ST. inversion ST; subst.
      + destruct C as [C|[[C _]|[C _]]]; congruence.
      + destruct C as [C|[[_ (st & C)]|(_ & _ & C)]]; [congruence|unfold done in C; congruence|]. eapply C. eassumption.
  Qed.

  (** With finitely many reads to come, every order of the steps comes to an end. *)
  Lemma steps_end (left : D -> nat) : limited left rd wd -> forall s, Acc (fun a b => step b a) s.
  Proof.
    intros [LR LW].
    assert (G : forall k s, (if sn_sending s then Datatypes.S (List.length (rd_tokens (sn_trace s))) else 0) + left (sn_dev s) < k ->
              Acc (fun a b => step b a) s).
    { induction k as [|k IH]; intros s L; [lia|]. constructor. intros s' ST. apply IH. revert L.
      destruct ST as [r d got r' d' b NP E|r b d got d' x NP E]; cbn [sn_trace sn_sending sn_dev]; intros L.
      - destruct (send_round wd r d) as [[X _]|[(r1 & X & _)|(r1 & d1 & p & [n e] & X & W & LT & _)]].
        + rewrite X in E. discriminate E.
        + rewrite X in E. unfold done in E. injection E as <- <- <-. lia.
        + rewrite X in E. unfold done in E. injection E as <- <- <-. pose proof (LW _ _ _ _ W). lia.
      - pose proof (LR _ _ _ E). lia. }
    intros s. exact (G _ s (Nat.lt_succ_diag_r _)).
  Qed.
End Ends.
