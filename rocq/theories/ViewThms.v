(** The trace viewer. *)
From Coq Require Import ZifyBool ZifyNat ZifyN.
From Verif Require Import Base BaseFacts GoTypes Types Payload Lingo Command SpecPayload SpecCommand
  Handlers SpecHandlers Packet SpecPacket PacketFacts PacketThms Hid SpecHid HidFacts HidThms Trace SpecTrace TraceFacts TraceThms
  TraceSessions Server SpecServer ServerFacts ServerThms SpecView.
Ltac Zify.zify_post_hook ::= Z.div_mod_to_equations.
#[local] Opaque std_registry.

(** ** Picking *)

Lemma of_dir_length d l : List.length (of_dir d l) <= List.length l.
Proof. unfold of_dir. induction l as [|x l IH]; cbn [filter List.length]; [lia|]. destruct (_ =? _)%N; cbn [List.length]; lia. Qed.

Lemma picks_of_dir d l t r : picks d l t r -> of_dir d l = t ++ of_dir d r.
Proof.
  unfold of_dir. induction 1 as [l|m l t r E _ IH|m l t r N _ IH]; [reflexivity|..]; cbn [filter app].
  - rewrite E, N.eqb_refl. now rewrite IH.
  - apply N.eqb_neq in N. now rewrite N.
Qed.

Lemma picks_other d d' l t r : picks d l t r -> d <> d' -> of_dir d' l = of_dir d' r.
Proof.
  intros P N. unfold of_dir. induction P as [l|m l t r E _ IH|m l t r N' _ IH]; [reflexivity|..]; cbn [filter].
  - subst d. apply N.eqb_neq in N. now rewrite N.
  - destruct (_ =? _)%N; [now f_equal|exact IH].
Qed.

Lemma picks_length d l t r : picks d l t r -> List.length l = List.length t + List.length r.
Proof. induction 1; cbn [List.length]; lia. Qed.

Lemma picks_valid d l t r : picks d l t r -> Forall (fun m => valid_dir (msg_Dir m)) l ->
  Forall (fun m => valid_dir (msg_Dir m)) r.
Proof.
  induction 1 as [l|m l t r _ _ IH|m l t r _ _ IH]; intros F; [exact F|..]; inversion F; subst; auto.
Qed.

Lemma take_picks d l m l' : take_dir d l = Some (m, l') -> msg_Dir m = d /\ picks d l [m] l'.
Proof.
  revert m l'; induction l as [|x l IH]; intros m l'; cbn [take_dir]; [discriminate|].
  destruct (N.eqb_spec (msg_Dir x) d) as [E|N].
  - intros H. injection H as <- <-. split; [exact E|]. apply picks_take; [exact E|apply picks_none].
  - destruct (take_dir d l) as [[y r]|]; [|discriminate]. intros H. injection H as <- <-.
    destruct (IH _ _ eq_refl) as [E P]. split; [exact E|]. now apply picks_skip.
Qed.

Lemma take_none d l : take_dir d l = None -> of_dir d l = [].
Proof.
  induction l as [|x l IH]; cbn [take_dir]; [reflexivity|]. unfold of_dir. cbn [filter].
  destruct (msg_Dir x =? d)%N; [discriminate|]. destruct (take_dir d l) as [[y r]|]; [discriminate|]. auto.
Qed.

Lemma picks_more d l m l1 : picks d l [m] l1 -> forall t r, picks d l1 t r -> msg_Dir m = d -> picks d l (m :: t) r.
Proof.
  intros P. remember [m] as s eqn:S. revert m S. induction P as [l|x l t1 r1 E P IH|x l t1 r1 N P IH];
    intros m S t r Q Hm; [discriminate|..].
  - injection S as -> ->. apply picks_take; [exact Hm|].
    assert (X : l = r1).
    { clear -P. remember [] as s eqn:S. induction P; [reflexivity|discriminate|]. subst. f_equal. auto. }
    now subst.
  - subst t1. inversion Q; subst.
    + apply picks_skip; [exact N|]. apply (IH m eq_refl); [apply picks_none|reflexivity].
    + congruence.
    + apply picks_skip; [exact N|]. now apply (IH m eq_refl).
Qed.

(** ** Reading a frame from the queue *)

Definition queue_dev (d : N) (q : Queue) : io (Queue * raw_read) :=
  let '(q', o) := queue_Read q d maxRawSize in go x <- Some o; done (q', x).

Lemma report_cut m n : maxRawSize <= n -> ReadReport (firstn n (msg_Data m), None) = report_of m.
Proof. intros L. unfold report_of, ReadReport. now rewrite firstn_firstn, Nat.min_l. Qed.

Lemma queue_dev_run d q : qinv q -> valid_dir d ->
  (of_dir d (qlist q) = [] /\ exists q', queue_dev d q = done (q', ([], Some EOF)) /\ qinv q' /\ qlist q' = qlist q)
  \/ exists m q', queue_dev d q = done (q', (firstn maxRawSize (msg_Data m), None)) /\ qinv q'
       /\ msg_Dir m = d /\ picks d (qlist q) [m] (qlist q').
Proof.
  intros Q V. unfold queue_dev, queue_Read. destruct (dequeue_dir_op q d Q V) as [A B].
  pose proof (inv_op q (QDequeueDir d) Q) as I. cbn [queue_op] in I.
  destruct (DequeueDir q d) as [q' o]. cbn [fst snd] in *. subst o.
  destruct (take_dir d (qlist q)) as [[m l]|] eqn:T.
  - right. exists m, q'. cbn [bind io_bind]. split; [reflexivity|]. split; [exact I|].
    destruct (take_picks _ _ _ _ T) as [E P]. rewrite B. auto.
  - left. split; [now apply take_none|]. exists q'. cbn [bind io_bind]. auto.
Qed.

Lemma read_queue defs d : valid_dir d -> forall fuel buf q, qinv q -> List.length (of_dir d (qlist q)) < fuel ->
  match ReadFrame_loop defs buf (map report_of (of_dir d (qlist q))) with
  | Panic => ReadFrame_dev fuel defs (queue_dev d) buf q = Some Panic
  | Ret (rest, _, r) => exists q' t, ReadFrame_dev fuel defs (queue_dev d) buf q = done (q', r) /\ qinv q'
      /\ picks d (qlist q) t (qlist q') /\ rest = map report_of (of_dir d (qlist q'))
  end.
Proof.
  intros V. induction fuel as [|fuel IH]; intros buf q Q L; [lia|]. cbn [ReadFrame_dev].
  destruct (queue_dev_run d q Q V) as [(E & q' & D & Q' & S)|(m & q' & D & Q' & Hm & P)]; rewrite D; cbn [io_bind done].
  - rewrite E. cbn [map ReadFrame_loop ReadReport]. exists q', []. split; [reflexivity|]. split; [exact Q'|].
    rewrite S, E. split; [apply picks_none|reflexivity].
  - rewrite report_cut by lia. pose proof (picks_of_dir _ _ _ _ P) as E. rewrite E in *. cbn [app map ReadFrame_loop List.length] in *.
    assert (ST : forall (r : bytes + goerr) (b : bytes), match Ret (map report_of (of_dir d (qlist q')), b, r) with
       | Panic => done (q', r) = Some Panic
       | Ret (rest, _, r) => exists q'0 t, done (q', r) = done (q'0, r) /\ qinv q'0
           /\ picks d (qlist q) t (qlist q'0) /\ rest = map report_of (of_dir d (qlist q'0)) end).
    { intros r b. exists q', [m]. auto. }
    assert (GO : forall buf', match ReadFrame_loop defs buf' (map report_of (of_dir d (qlist q'))) with
       | Panic => ReadFrame_dev fuel defs (queue_dev d) buf' q' = Some Panic
       | Ret (rest, _, r) => exists q'0 t, ReadFrame_dev fuel defs (queue_dev d) buf' q' = done (q'0, r) /\ qinv q'0
           /\ picks d (qlist q) t (qlist q'0) /\ rest = map report_of (of_dir d (qlist q'0)) end).
    { intros buf'. specialize (IH buf' q' Q' ltac:(lia)).
      destruct (ReadFrame_loop defs buf' (map report_of (of_dir d (qlist q')))) as [[[rest b] r]|]; [|exact IH].
      destruct IH as (q2 & t & A & B & C & F). exists q2, (m :: t). split; [exact A|]. split; [exact B|].
      split; [|exact F]. exact (picks_more _ _ _ _ P _ _ C Hm). }
    destruct (report_of m) as [report|er]; [|apply (ST _ buf)].
    destruct (Find defs (Z.of_N (b2n (rep_ID report)))) as [def|er]; [|apply (ST _ buf)]. cbv zeta.
    destruct (Z.min _ _ <? 0)%Z; [reflexivity|].
    destruct (_ =? LinkControlDone)%N; [apply (ST _ [])|].
    destruct (_ =? LinkControlMoreToFollow)%N; [apply GO|].
    destruct (_ =? N.lor _ _)%N; [apply GO|].
    destruct (_ =? LinkControlContinue)%N; [apply (ST _ [])|apply GO].
Qed.

(** ** One frame of the view *)

Lemma report_not_eof m : report_of m <> inr EOF.
Proof.
  unfold report_of, ReadReport. destruct (firstn maxRawSize (msg_Data m)) as [|a [|b [|c x]]]; discriminate.
Qed.

Lemma view_next defs q h : Forall (fun d => (1 <= def_Len d)%Z) defs ->
  qinv q -> Head q = Some h -> Forall (fun m => valid_dir (msg_Dir m)) (qlist q) ->
  let d := msg_Dir h in
  exists q' r, ReadFrame_dev (Datatypes.S (List.length (q_all q))) defs (queue_dev d) [] q = done (q', r) /\ qinv q'
    /\ Forall (fun m => valid_dir (msg_Dir m)) (qlist q')
    /\ ((r = inr EOF /\ unfinished defs (qlist q) /\ qlist q' = filter (fun x => negb (msg_Dir x =? d)%N) (qlist q))
        \/ (r <> inr EOF /\ next_frame defs (qlist q) d r (qlist q') /\ List.length (qlist q') < List.length (qlist q))).
Proof.
  intros L Q H F d.
  assert (X : exists l, qlist q = h :: l).
  { unfold Head in H. unfold qlist. destruct (q_all q) as [|[i x] l]; [discriminate|]. injection H as <-. cbn [map snd]. eauto. }
  destruct X as (l & EQ).
  assert (V : valid_dir d) by (rewrite EQ in F; inversion F; assumption).
  assert (LE : List.length (of_dir d (qlist q)) < Datatypes.S (List.length (q_all q))).
  { assert (LQ : List.length (qlist q) = List.length (q_all q)) by apply map_length.
    pose proof (of_dir_length d (qlist q)). lia. }
  pose proof (read_queue defs d V _ [] q Q LE) as R.
  destruct (ReadFrame_loop defs [] (map report_of (of_dir d (qlist q)))) as [[[rest b] r]|] eqn:RF.
  2:{ exfalso. assert (P : ReadFrame defs [] (map report_of (of_dir d (qlist q))) = Panic) by exact RF.
      apply ReadFrame_panic_iff in P as (pre & r & df & rest & _ & _ & _ & (a & c & -> & _) & Z).
      apply Forall_app in L as [_ L]. inversion L; subst. lia. }
  destruct R as (q' & t & RD & Q' & P & ER). exists q', r. split; [exact RD|]. split; [exact Q'|].
  split; [exact (picks_valid _ _ _ _ P F)|].
  pose proof (picks_of_dir _ _ _ _ P) as SP.
  assert (SP' : map report_of (of_dir d (qlist q)) = map report_of t ++ map report_of (of_dir d (qlist q')))
    by (rewrite SP; apply map_app).
  assert (RF' : ReadFrame defs [] (map report_of (of_dir d (qlist q))) = Ret (rest, b, r)) by exact RF.
  pose proof (picks_length _ _ _ _ P) as LL. rewrite EQ in P |- *.
  destruct r as [f|e].
  - right. split; [discriminate|].
    apply ReadFrame_ok_iff in RF' as (-> & pre & last & I & LP & NE & EL & FO).
    assert (T : map report_of t = map inl (pre ++ [last])).
    { rewrite I, ER in SP'. now apply app_inv_tail in SP'. }
    split; [eapply next_ok; eassumption|].
    destruct t as [|m t]; [destruct pre; discriminate|]. rewrite <- EQ. cbn [List.length] in LL. lia.
  - assert (RF2 : exists b, ReadFrame defs [] (map report_of (of_dir d (qlist q))) = Ret (rest, b, inr e)) by eauto.
    apply ReadFrame_err_iff in RF2 as (pre & LP & NE & D).
    assert (NX : forall x, map report_of (of_dir d (qlist q)) = map inl pre ++ x :: rest ->
              match x with inr e' => e = e' | inl r => unknown defs r /\ e = errReportID end ->
              (next_frame defs (h :: l) d (inr e) (qlist q') /\ List.length (qlist q') < List.length (h :: l))).
    { intros x I HX. assert (T : map report_of t = map inl pre ++ [x]).
      { rewrite I, ER in SP'. revert SP'. generalize (map report_of (of_dir d (qlist q'))). intros z SP'.
        replace (map inl pre ++ x :: z) with ((map inl pre ++ [x]) ++ z) in SP' by now rewrite <- app_assoc.
        now apply app_inv_tail in SP'. }
      split; [eapply next_error; eassumption|].
      destruct t as [|m t]; [destruct pre; discriminate|]. rewrite <- EQ. cbn [List.length] in LL. lia. }
    destruct D as [I|[(r & I & U & ->)|(I & -> & ->)]].
    + right. assert (N : e <> EOF).
      { intros ->. assert (IN : In (inr EOF) (map report_of (of_dir d (qlist q)))) by (rewrite I; apply in_or_app; right; left; reflexivity).
        apply in_map_iff in IN as (m & E & _). now apply report_not_eof in E. }
      split; [congruence|]. apply (NX (inr e)); [exact I|reflexivity].
    + right. split; [discriminate|]. apply (NX (inl r)); [exact I|]. auto.
    + left. split; [reflexivity|]. split.
      * exists h, l, pre. fold d. rewrite <- EQ. auto.
      * symmetry in ER. apply map_eq_nil in ER. clear -P ER. revert P ER. generalize (qlist q'). intros r P.
        assert (G : forall l t r, picks d l t r -> of_dir d r = [] -> r = filter (fun x => negb (msg_Dir x =? d)%N) l).
        { clear. induction 1 as [l|m l t r E _ IH|m l t r N _ IH]; intros H.
          - unfold of_dir in H. induction l as [|x l IH]; [reflexivity|]. cbn [filter] in *.
            destruct (msg_Dir x =? d)%N; [discriminate|]. cbn [negb]. f_equal. auto.
          - cbn [filter]. rewrite E, N.eqb_refl. cbn [negb]. auto.
          - unfold of_dir in H. cbn [filter] in *. apply N.eqb_neq in N. rewrite N in *. cbn [negb]. f_equal. auto. }
        exact (G _ _ _ P).
Qed.

(** ** Packets *)

(** The errors of reading a packet. *)
Lemma read_error f d sp fr p e :
  filler f -> ReadPacket (mkSlice (f ++ x55 :: d) sp) = Ret (fr, p, Some e) ->
  e = (if Nat.ltb (List.length d) 3 then UnexpectedEOF else ErrMsg "invalid checksum").
Proof.
  intros Hf H. rewrite ReadPacket_start in H by exact Hf. pose proof (parsePacket_spec d sp) as S.
  destruct (parseHeader_cases d) as [(a & b & HP & H3 & _)|[HP Hl]]; rewrite HP in S.
  - destruct (Nat.ltb_spec (List.length d) 3) as [X|X]; [lia|]. cbn zeta in S.
    destruct (List.length d + List.length sp <? a + b + 1); [rewrite S in H; discriminate|].
    destruct (_ =? 0)%N; rewrite S in H; cbn [bind] in H.
    + destruct (slice_from _ _); discriminate.
    + injection H as _ _ <-. reflexivity.
  - rewrite S in H. cbn [bind] in H. injection H as _ _ <-.
    destruct (Nat.ltb_spec (List.length d) 3) as [X|X]; [reflexivity|lia].
Qed.

Definition pkts (evs : list pkt_event) : list bytes :=
  flat_map (fun e => match e with PktCmd p _ _ => [p] | PktErr _ => [] end) evs.

Lemma shown_combine evs : shown evs = combine (pkts evs) (inCmds evs) /\ List.length (pkts evs) = List.length (inCmds evs).
Proof.
  induction evs as [|[e|p c e] evs [A B]]; [split; reflexivity|..]; unfold shown, pkts, inCmds in *;
    cbn [flat_map app combine List.length]; rewrite ?A, ?B; auto.
Qed.

Lemma read_packets_pkts fuel rt : forall m fr m' evs,
  read_packets fuel rt std_registry m fr = Some (Ret (m', evs)) -> holds fr (pkts evs).
Proof.
  induction fuel as [|fuel IH]; intros m fr m' evs; cbn [read_packets]; [discriminate|].
  destruct fr as [v sp].
  destruct (split_start v) as [Hn|(f & d & -> & Hf)].
  { rewrite ReadPacket_eof by exact Hn. cbn [io_bind]. intros H. injection H as <- <-.
    exists v. split; [apply parses_here|exact Hn]. }
  destruct (start_cases f d sp Hf) as [(p & w & d' & Ew & Hw & E)|[(Ho & E)|(Hn & Ho & e & He & E)]];
    rewrite E; cbn [io_bind]; [| discriminate |].
  - rewrite Ew. destruct (UnmarshalCmd rt std_registry m p) as [[[m1 c] ue]|]; cbn [io_bind]; [|discriminate].
    destruct (read_packets fuel rt std_registry m1 (mkSlice d' sp)) as [[[m2 evs2]|]|] eqn:R; cbn [io_bind]; try discriminate.
    intros H. injection H as <- <-. apply IH in R as (r & Hs & Hr). cbn [vis spare] in Hs.
    exists r. split; [|exact Hr]. cbn [vis spare pkts flat_map app]. now apply parses_packet.
  - intros H. assert (X : exists evs2, read_packets fuel rt std_registry m (mkSlice d sp) = Some (Ret (m', evs2))
                          /\ evs = PktErr e :: evs2).
    { destruct e; try (now elim He);
        (destruct (read_packets fuel rt std_registry m (mkSlice d sp)) as [[[m2 evs2]|]|]; try discriminate H;
         cbn [io_bind] in H; injection H as <- <-; eauto). }
    destruct X as (evs2 & R & ->). apply IH in R as (r & Hs & Hr). exists r. split; [|exact Hr]. now apply parses_bad.
Qed.

Lemma read_packets_happens fuel rt : forall m fr m' evs,
  read_packets fuel rt std_registry m fr = Some (Ret (m', evs)) -> happens rt (spare fr) m (vis fr) evs.
Proof.
  induction fuel as [|fuel IH]; intros m fr m' evs; cbn [read_packets]; [discriminate|].
  destruct fr as [v sp]. cbn [vis spare].
  destruct (split_start v) as [Hn|(f & d & -> & Hf)].
  { rewrite ReadPacket_eof by exact Hn. cbn [io_bind]. intros H. injection H as <- <-. now apply happens_end. }
  destruct (start_cases f d sp Hf) as [(p & w & d' & Ew & Hw & E)|[(Ho & E)|(Hn & Ho & e & He & E)]];
    rewrite E; cbn [io_bind]; [| discriminate |].
  - rewrite Ew. destruct (UnmarshalCmd rt std_registry m p) as [[[m1 c] ue]|] eqn:U; cbn [io_bind]; [|discriminate].
    destruct (read_packets fuel rt std_registry m1 (mkSlice d' sp)) as [[[m2 evs2]|]|] eqn:R; cbn [io_bind]; try discriminate.
    intros H. injection H as <- <-. apply IH in R. cbn [vis spare] in R. eapply happens_packet; eassumption.
  - intros H. assert (X : exists evs2, read_packets fuel rt std_registry m (mkSlice d sp) = Some (Ret (m', evs2))
                          /\ evs = PktErr e :: evs2).
    { destruct e; try (now elim He);
        (destruct (read_packets fuel rt std_registry m (mkSlice d sp)) as [[[m2 evs2]|]|]; try discriminate H;
         cbn [io_bind] in H; injection H as <- <-; eauto). }
    destruct X as (evs2 & R & ->). apply IH in R. cbn [vis spare] in R. apply happens_bad; try assumption.
    exact (read_error f d sp _ _ _ Hf E).
Qed.

Lemma frame_packets_shown rt m fr :
  (exists m' evs ps cs, frame_packets rt std_registry m fr = Some (Ret (m', evs))
     /\ holds fr ps /\ decodes rt m ps cs /\ m' = mode_after m (ids_of ps)
     /\ shown evs = combine ps cs /\ List.length ps = List.length cs /\ happens rt (spare fr) m (vis fr) evs)
  \/ (frame_packets rt std_registry m fr = Some Panic /\ crashing_frame rt m fr).
Proof.
  destruct (frame_packets_run rt m fr) as [(m' & evs & ps & R & H & D)|C]; [|right; exact C].
  left. exists m', evs, ps, (inCmds evs). pose proof (read_packets_pkts _ _ _ _ _ _ R) as H'.
  pose proof (read_packets_happens _ _ _ _ _ _ R : happens rt (spare fr) m (vis fr) evs) as HA.
  destruct (shown_combine evs) as [A B]. pose proof (dec_mode _ _ _ _ _ D) as M.
  rewrite (holds_unique _ _ _ H' H) in A, B. split; [exact R|]. split; [exact H|].
  split; [apply decodes_dec; now rewrite <- M|]. auto.
Qed.

(** ** The view *)

Lemma head_list q : Head q = None -> qlist q = [].
Proof. unfold Head, qlist. destruct (q_all q) as [|[i m] l]; [reflexivity|discriminate]. Qed.

Lemma view_run rt defs spares : Forall (fun d => (1 <= def_Len d)%Z) defs -> forall fuel n m q,
  qinv q -> Forall (fun x => valid_dir (msg_Dir x)) (qlist q) -> List.length (qlist q) < fuel ->
  (exists q' es, view_loop fuel rt std_registry defs spares n m q = done (q', es)
     /\ shows rt defs spares n m (qlist q) es (qlist q'))
  \/ (view_loop fuel rt std_registry defs spares n m q = Some Panic /\ view_crashes rt defs spares n m (qlist q)).
Proof.
  intros L. induction fuel as [|fuel IH]; intros n m q Q F LE; [lia|]. cbn [view_loop].
  destruct (Head q) as [h|] eqn:H.
  2:{ left. exists q, []. split; [reflexivity|]. rewrite (head_list _ H). apply shows_end. }
  destruct (view_next defs q h L Q H F) as (q' & r & R & Q' & F' & D). 
  match goal with |- context [ReadFrame_dev ?a ?b ?c ?e q] =>
    change (ReadFrame_dev a b c e q) with (ReadFrame_dev a b (queue_dev (msg_Dir h)) e q) end.
  rewrite R. cbn [io_bind done].
  destruct D as [(-> & U & E)|(N & X & LL)].
  - left. exists q', []. split; [reflexivity|]. rewrite E. destruct U as (h' & l' & rs & EQ & U).
    assert (HH : h' = h).
    { unfold Head in H. unfold qlist in EQ. destruct (q_all q) as [|[i y] l]; [discriminate|]. injection H as <-. injection EQ as <- _. reflexivity. }
    subst h'. rewrite EQ. cbn [filter]. rewrite N.eqb_refl. cbn [negb]. apply shows_stop. exists h, l', rs. rewrite <- EQ. auto.
  - destruct r as [f|e].
    + destruct (frame_packets_shown rt m (mkSlice f (spares n))) as [(m' & evs & ps & cs & P & HH & DD & -> & SS & SL & HA)|(P & C)];
        rewrite P; cbn [io_bind].
      * destruct (IH (S n) (mode_after m (ids_of ps)) q' Q' F' ltac:(lia)) as [(q2 & es & V & SH)|(V & C)]; rewrite V; cbn [io_bind done].
        -- left. eexists _, _. split; [reflexivity|]. eapply shows_frame; eassumption.
        -- right. split; [reflexivity|]. eapply view_crash_later; eassumption.
      * right. split; [reflexivity|]. eapply view_crash_now; eassumption.
    + assert (X2 : (exists q2 es, view_loop fuel rt std_registry defs spares (S n) m q' = done (q2, es)
                      /\ shows rt defs spares n m (qlist q) (mkView (msg_Dir h) (inr e) [] :: es) (qlist q2))
                   \/ view_loop fuel rt std_registry defs spares (S n) m q' = Some Panic /\ view_crashes rt defs spares n m (qlist q)).
      { destruct (IH (S n) m q' Q' F' ltac:(lia)) as [(q2 & es & V & SH)|(V & C)].
        - left. exists q2, es. split; [exact V|]. eapply shows_error; eassumption.
        - right. split; [exact V|]. eapply view_crash_error; eassumption. }
      destruct X2 as [(q2 & es & V & SH)|(V & C)].
      * left. exists q2, (mkView (msg_Dir h) (inr e) [] :: es). split; [|exact SH]. rewrite V.
        destruct e; try reflexivity. now elim N.
      * right. split; [|exact C]. rewrite V. destruct e; try reflexivity. now elim N.
Qed.

(** ** What is shown is determined by the messages *)

Lemma next_unique_parts d l t r t' r' : picks d l t r -> picks d l t' r' -> List.length t = List.length t' -> t = t' /\ r = r'.
Proof.
  intros P. revert t' r'. induction P as [l|m l t r E _ IH|m l t r N P IH]; intros t' r' P' L.
  - destruct t'; [|discriminate]. split; [reflexivity|].
    remember [] as s eqn:S. clear L. induction P'; [reflexivity|discriminate|]. subst. f_equal. auto.
  - inversion P'; subst; [discriminate| |congruence].
    destruct (IH t0 r' H4 ltac:(cbn [List.length] in L; lia)) as [-> ->]. auto.
  - inversion P'; subst.
    + destruct t; [|discriminate]. split; [reflexivity|]. f_equal.
      destruct (IH [] l (picks_none d l) eq_refl) as [_ ->]. reflexivity.
    + congruence.
    + destruct (IH t' r0 H4 L) as [-> ->]. auto.
Qed.

Lemma next_read defs l d x rest : next_frame defs l d x rest ->
  exists h l' t b, l = h :: l' /\ d = msg_Dir h /\ picks d l t rest
    /\ ReadFrame defs [] (map report_of (of_dir d l)) = Ret (map report_of (of_dir d rest), b, x) /\ x <> inr EOF.
Proof.
  intros H. destruct H as [h l t rest pre last f P T L NE EL F|h l t rest pre x e P T L NE X].
  - exists h, l, t, f. split; [reflexivity|]. split; [reflexivity|]. split; [exact P|]. split; [|discriminate].
    apply ReadFrame_ok_iff. split; [reflexivity|]. exists pre, last.
    rewrite (picks_of_dir _ _ _ _ P), map_app, T. auto.
  - assert (R : exists b, ReadFrame defs [] (map report_of (of_dir (msg_Dir h) (h :: l)))
                 = Ret (map report_of (of_dir (msg_Dir h) rest), b, inr e)).
    { apply ReadFrame_err_iff. exists pre. split; [exact L|]. split; [exact NE|].
      rewrite (picks_of_dir _ _ _ _ P), map_app, T, <- app_assoc. cbn [app].
      destruct x as [r|e']; [|subst e'; left; reflexivity]. right. left. exists r. destruct X. auto. }
    destruct R as (b & R). exists h, l, t, b. split; [reflexivity|]. split; [reflexivity|]. split; [exact P|].
    split; [exact R|]. intros E. injection E as ->.
    destruct x as [r|e']; [destruct X as [_ X]; discriminate|]. subst e'.
    assert (IN : In (inr EOF) (map report_of t)) by (rewrite T; apply in_or_app; right; left; reflexivity).
    apply in_map_iff in IN as (m & E & _). now apply report_not_eof in E.
Qed.

Lemma next_unique defs l d x rest d' x' rest' :
  next_frame defs l d x rest -> next_frame defs l d' x' rest' -> d = d' /\ x = x' /\ rest = rest'.
Proof.
  intros H H'. destruct (next_read _ _ _ _ _ H) as (h & l1 & t & b & E & D & P & R & _).
  destruct (next_read _ _ _ _ _ H') as (h' & l1' & t' & b' & E' & D' & P' & R' & _).
  rewrite E in E'. injection E' as <- <-. rewrite <- D in D'. subst d'.
  rewrite R in R'. assert (X : map report_of (of_dir d rest) = map report_of (of_dir d rest') /\ x = x').
  { injection R' as A B C. auto. }
  destruct X as [X ->]. split; [reflexivity|]. split; [reflexivity|].
  assert (LT : List.length t = List.length t').
  { pose proof (picks_of_dir _ _ _ _ P) as S1. pose proof (picks_of_dir _ _ _ _ P') as S2. rewrite S1 in S2.
    apply (f_equal (@List.length Msg)) in S2. rewrite !app_length in S2.
    apply (f_equal (@List.length _)) in X. rewrite !map_length in X. lia. }
  exact (proj2 (next_unique_parts _ _ _ _ _ _ P P' LT)).
Qed.

Lemma unfinished_next defs l d x rest : unfinished defs l -> ~ next_frame defs l d x rest.
Proof.
  intros (h & l' & rs & -> & M & L & NE) N.
  destruct (next_read _ _ _ _ _ N) as (h' & l1 & t & b & E & D & P & R & NEOF).
  injection E as <- <-. subst d.
  assert (R' : exists b, ReadFrame defs [] (map report_of (of_dir (msg_Dir h) (h :: l'))) = Ret ([], b, inr EOF)).
  { apply ReadFrame_err_iff. exists rs. split; [exact L|]. split; [exact NE|]. right. right. auto. }
  destruct R' as (b' & R'). rewrite R in R'. injection R' as _ _ ->. now elim NEOF.
Qed.

Lemma decodes_unique rt m ps cs cs' : decodes rt m ps cs -> decodes rt m ps cs' -> cs = cs'.
Proof.
  rewrite !decodes_dec. generalize (mode_after m (ids_of ps)). intros m' D. revert cs'.
  induction D as [m|m p ps m1 c e cs m' U _ IH]; intros cs' D'; inversion D' as [|m0 p0 ps0 m1' c0 e0 cs0 m0' U' D0]; subst; [reflexivity|].
  rewrite U in U'. injection U' as <- <- <-. f_equal. now apply IH.
Qed.

Lemma shows_not_crashes rt defs spares n m l es left :
  shows rt defs spares n m l es left -> ~ view_crashes rt defs spares n m l.
Proof.
  induction 1 as [n m|n m h l U|n m l d e rest es left N S IH|n m l d f rest ps cs evs es left N H D SH SL HA S IH]; intros C.
  - inversion C; match goal with H : next_frame _ [] _ _ _ |- _ => inversion H end.
  - inversion C; match goal with H : next_frame _ _ _ _ _ |- _ => now apply unfinished_next in H end.
  - inversion C as [n' m' l' d' f' rest' N'|n' m' l' d' e' rest' N' C'|n' m' l' d' f' rest' ps' cs' N' H' D' C']; subst;
      destruct (next_unique _ _ _ _ _ _ _ _ N N') as (-> & E & ->); try discriminate. auto.
  - inversion C as [n' m' l' d' f' rest' N' X|n' m' l' d' e' rest' N' C'|n' m' l' d' f' rest' ps' cs' N' H' D' C']; subst;
      destruct (next_unique _ _ _ _ _ _ _ _ N N') as (-> & E & ->); try discriminate; injection E as <-.
    + apply decodes_dec in D.
      destruct (holds_runs _ _ _ _ _ _ _ (Nat.lt_succ_diag_r _) H D) as (es' & R & _).
      rewrite (crash_panics _ _ _ _ (Nat.lt_succ_diag_r _) X) in R. discriminate.
    + rewrite (holds_unique _ _ _ H' H) in *. auto.
Qed.

Lemma happens_unique_any rt sp sp' m d evs : happens rt sp m d evs -> forall evs', happens rt sp' m d evs' -> evs = evs'.
Proof.
  induction 1 as [m f Hf|m f w p d m1 c e evs Hf Hw U H IH|m f d e evs Hf Hn Ho He H IH]; intros evs' H'.
  - inversion H' as [|m0 f0 w p d0 m1 c e evs0 Hf0 Hw|m0 f0 d0 e evs0 Hf0 Hn]; subst; [reflexivity| |].
    + exfalso. apply Hf. destruct (packet_start _ _ Hw) as (w' & ->). apply in_elt.
    + exfalso. apply Hf. apply in_elt.
  - destruct (packet_start _ _ Hw) as (w1 & Ew).
    inversion H' as [m0 f0 Hf0 Em E1|m0 f0 w0 p0 d0 m2 c0 e0 evs0 Hf0 Hw0 U0 H0 Em E1|m0 f0 d0 e0 evs0 Hf0 Hn0 Ho0 He0 H0 Em E1].
    + exfalso. subst f0. apply Hf0. rewrite Ew. apply in_elt.
    + destruct (packet_start _ _ Hw0) as (w2 & Ew2). rewrite Ew, Ew2 in E1. cbn [app] in E1.
      destruct (first_start _ _ _ _ E1 Hf0 Hf) as [_ E2].
      destruct (packet_unique p w d p0 w0 d0 Hw Hw0) as (-> & -> & ->); [rewrite Ew, Ew2; cbn; congruence|].
      rewrite U in U0. injection U0 as <- <- <-. f_equal. now apply IH.
    + exfalso. rewrite Ew in E1. cbn [app] in E1. destruct (first_start _ _ _ _ E1 Hf0 Hf) as [_ E2].
      apply (Hn0 p w d); [rewrite Ew; cbn; congruence|exact Hw].
  - inversion H' as [m0 f0 Hf0 Em E1|m0 f0 w0 p0 d0 m2 c0 e0 evs0 Hf0 Hw0 U0 H0 Em E1|m0 f0 d0 e0 evs0 Hf0 Hn0 Ho0 He0 H0 Em E1].
    + exfalso. subst f0. apply Hf0. apply in_elt.
    + exfalso. destruct (packet_start _ _ Hw0) as (w2 & Ew2). rewrite Ew2 in E1. cbn [app] in E1.
      destruct (first_start _ _ _ _ E1 Hf0 Hf) as [_ E2].
      apply (Hn p0 w0 d0); [rewrite Ew2; cbn; congruence|exact Hw0].
    + destruct (first_start _ _ _ _ E1 Hf0 Hf) as [_ ->]. rewrite He, He0. f_equal. now apply IH.
Qed.

Lemma happens_unique rt sp m d evs : happens rt sp m d evs -> forall evs', happens rt sp m d evs' -> evs = evs'.
Proof. exact (happens_unique_any rt sp sp m d evs). Qed.

Lemma shows_messages rt defs spares n m l es left : shows rt defs spares n m l es left ->
  forall es' left', shows rt defs spares n m l es' left' -> left' = left /\ es' = es.
Proof.
  induction 1 as [n m|n m h l U|n m l d e rest es left N S IH|n m l d f rest ps cs evs es left N H D SH SL HA S IH];
    intros es' left' S'; inversion S' as [|? ? ? ? U'|? ? ? d' e' rest' es2 left2 N' S2|? ? ? d' f' rest' ps' cs' evs' es2 left2 N' H' D' SH' SL' HA' S2]; subst;
    try (match goal with H : next_frame _ [] _ _ _ |- _ => now inversion H end);
    try (match goal with H : next_frame _ _ _ _ _ |- _ => now apply unfinished_next in H end).
  - auto.
  - auto.
  - destruct (next_unique _ _ _ _ _ _ _ _ N N') as (-> & E & ->). injection E as <-.
    destruct (IH _ _ S2) as [-> ->]. auto.
  - destruct (next_unique _ _ _ _ _ _ _ _ N N') as (_ & E & _). discriminate.
  - destruct (next_unique _ _ _ _ _ _ _ _ N N') as (_ & E & _). discriminate.
  - destruct (next_unique _ _ _ _ _ _ _ _ N N') as (-> & E & ->). injection E as <-.
    pose proof (holds_unique _ _ _ H' H) as ->. pose proof (happens_unique _ _ _ _ _ HA _ HA') as <-.
    destruct (IH _ _ S2) as [-> ->]. auto.
Qed.

(** ** Everything is shown *)

Lemma closed_next defs l d x rest d' : next_frame defs l d x rest -> closed defs d' l -> closed defs d' rest.
Proof.
  intros N C. destruct (next_read _ _ _ _ _ N) as (h & l' & t & b & -> & -> & P & _). intros pre m E.
  destruct (N.eq_dec (msg_Dir h) d') as [<- |NE].
  - apply (C (t ++ pre) m). now rewrite (picks_of_dir _ _ _ _ P), E, app_assoc.
  - apply (C pre m). now rewrite (picks_other _ _ _ _ _ P NE).
Qed.

Lemma last_list {A} (x : A) l : exists pre m, x :: l = pre ++ [m].
Proof. destruct (exists_last (l := x :: l)) as (pre & m & E); [discriminate|]. eauto. Qed.

Lemma live_not_unknown defs r : live defs r -> ~ unknown defs r.
Proof.
  intros (d & K & _) U. unfold unknown in U. destruct K as (a & b & -> & E & _).
  apply Forall_app in U as [_ U]. inversion U; auto.
Qed.

Lemma closed_unfinished defs h l : closed defs (msg_Dir h) (h :: l) -> ~ unfinished defs (h :: l).
Proof.
  intros C (h' & l' & rs & E & M & L & NE). injection E as <- <-.
  assert (X : exists pre m, of_dir (msg_Dir h) (h :: l) = pre ++ [m]).
  { unfold of_dir. cbn [filter]. rewrite N.eqb_refl. apply last_list. }
  destruct X as (pre & m & X). specialize (C _ _ X). rewrite X, map_app in M. cbn [map] in M.
  destruct rs as [|r rs] using rev_ind; [destruct pre; discriminate|]. rewrite map_app in M. cbn [map] in M.
  apply app_inj_tail in M as [_ M]. rewrite M in C.
  apply Forall_app in L as [_ L], NE as [_ NE]. inversion L; inversion NE; subst.
  destruct C as [C|C]; [auto|]. eapply live_not_unknown; eassumption.
Qed.

Lemma closed_complete rt defs spares n m l es left : shows rt defs spares n m l es left ->
  Forall (fun x => valid_dir (msg_Dir x)) l -> closed defs 0 l -> closed defs 1 l -> left = [].
Proof.
  induction 1 as [n m|n m h l U|n m l d e rest es left N S IH|n m l d f rest ps cs evs es left N H D SH SL HA S IH]; intros F C0 C1.
  - reflexivity.
  - exfalso. inversion F as [|? ? V _]; subst. apply (closed_unfinished defs h l); [|exact U].
    destruct V as [-> | ->]; assumption.
  - apply IH; [|eapply closed_next; eassumption..].
    destruct (next_read _ _ _ _ _ N) as (? & ? & ? & ? & _ & _ & P & _). exact (picks_valid _ _ _ _ P F).
  - apply IH; [|eapply closed_next; eassumption..].
    destruct (next_read _ _ _ _ _ N) as (? & ? & ? & ? & _ & _ & P & _). exact (picks_valid _ _ _ _ P F).
Qed.

Lemma next_dir defs l d x rest fs : next_frame defs l d x rest ->
  frames_read defs (map report_of (of_dir d rest)) fs -> frames_read defs (map report_of (of_dir d l)) (x :: fs).
Proof.
  intros N. destruct N as [h l t rest pre last f P T L NE EL F|h l t rest pre x e P T L NE X]; intros R;
    rewrite (picks_of_dir _ _ _ _ P), map_app, T.
  - now apply read_ok.
  - rewrite <- app_assoc. cbn [app]. now apply read_bad.
Qed.

Lemma shows_dir rt defs spares n m l es : shows rt defs spares n m l es [] ->
  Forall (fun x => valid_dir (msg_Dir x)) l -> closed defs 0 l -> closed defs 1 l ->
  forall d, frames_read defs (map report_of (of_dir d l)) (frames_shown d es).
Proof.
  remember [] as left eqn:LE. intros S. revert LE.
  induction S as [n m|n m h l U|n m l d e rest es left N S IH|n m l d f rest ps cs evs es left N H D SH SL HA S IH];
    intros LE F C0 C1 d'; subst.
  - apply read_none.
  - exfalso. inversion F as [|? ? V _]; subst. apply (closed_unfinished defs h l); [|exact U].
    destruct V as [-> | ->]; assumption.
  - assert (F' : Forall (fun x => valid_dir (msg_Dir x)) rest).
    { destruct (next_read _ _ _ _ _ N) as (? & ? & ? & ? & _ & _ & P & _). exact (picks_valid _ _ _ _ P F). }
    specialize (IH eq_refl F' (closed_next _ _ _ _ _ _ N C0) (closed_next _ _ _ _ _ _ N C1) d').
    unfold frames_shown. cbn [filter vw_dir]. destruct (N.eqb_spec d d') as [<- |NE]; cbn [map vw_frame].
    + eapply next_dir; eassumption.
    + destruct (next_read _ _ _ _ _ N) as (h & ? & ? & ? & _ & _ & P & _). now rewrite (picks_other _ _ _ _ _ P NE).
  - assert (F' : Forall (fun x => valid_dir (msg_Dir x)) rest).
    { destruct (next_read _ _ _ _ _ N) as (? & ? & ? & ? & _ & _ & P & _). exact (picks_valid _ _ _ _ P F). }
    specialize (IH eq_refl F' (closed_next _ _ _ _ _ _ N C0) (closed_next _ _ _ _ _ _ N C1) d').
    unfold frames_shown. cbn [filter vw_dir]. destruct (N.eqb_spec d d') as [<- |NE]; cbn [map vw_frame].
    + eapply next_dir; eassumption.
    + destruct (next_read _ _ _ _ _ N) as (h & ? & ? & ? & _ & _ & P & _). now rewrite (picks_other _ _ _ _ _ P NE).
Qed.

(** ** Loading *)

Lemma unmarshal_not_eof m text m' : Msg_UnmarshalText m text <> (m', Some EOF).
Proof.
  unfold Msg_UnmarshalText. destruct (Nat.ltb _ _); [discriminate|].
  unfold Dir_UnmarshalText. destruct (firstn 1 text) as [|c [|? ?]]; [discriminate| |discriminate].
  destruct (byte_eqb c LT); [|destruct (byte_eqb c GT); [|discriminate]]; destruct (Sscanf_x _); discriminate.
Qed.

Lemma accepts_dir t d data : accepts t d data -> valid_dir d.
Proof. intros (_ & c & x & body & w & digits & tail & _ & S & _). unfold valid_dir, sign in *. tauto. Qed.

Lemma enqueue_valid q m : qinv q -> valid_dir (msg_Dir m) ->
  exists q', Enqueue q m = (q', Ret tt) /\ qinv q' /\ qlist q' = qlist q ++ [m].
Proof.
  intros Q V. pose proof (inv_enqueue q m Q) as I. pose proof (enqueue_all q m) as A.
  assert (R : snd (Enqueue q m) = Ret tt).
  { unfold Enqueue. destruct V as [-> | ->]; reflexivity. }
  destruct (Enqueue q m) as [q' o]. cbn [fst snd] in *. subst o. exists q'. split; [reflexivity|]. split; [exact I|].
  unfold qlist. rewrite A, map_app. reflexivity.
Qed.

Lemma load_cases fin : forall tokens i q fuel, qinv q -> List.length tokens < fuel ->
  exists x, load_trace fuel (mkReader tokens fin None i) q = done x
    /\ match x with
       | inl q' => fin = EOF /\ qinv q' /\ exists ms, qlist q' = qlist q ++ ms /\ Forall (fun m => valid_dir (msg_Dir m)) ms
                    /\ forall k, read_msgs (List.length ms + k) (mkReader tokens fin None i) = map received ms ++ repeat (failed EOF) k
       | inr e => e <> EOF /\ exists ms m, forall k, exists rs,
                    read_msgs (S (List.length ms) + k) (mkReader tokens fin None i) = map received ms ++ (m, Some e) :: rs
       end.
Proof.
  assert (FIN : fin = EOF \/ fin <> EOF) by (destruct fin; auto; right; discriminate).
  induction tokens as [|t tokens IH]; intros i q fuel Q L; (destruct fuel as [|fuel]; [lia|]).
  - destruct FIN as [-> |NF].
    + exists (inl q). split; [reflexivity|]. split; [reflexivity|]. split; [exact Q|]. exists []. rewrite app_nil_r.
      split; [reflexivity|]. split; [constructor|]. intros k. apply read_end.
    + exists (inr fin). split.
      * cbn [load_trace ReadMsg rd_err ReadMsg_loop rd_tokens rd_fin rd_ts]. destruct fin; try reflexivity. now elim NF.
      * split; [exact NF|]. exists [], (mkMsg 0 0 []). intros k. exists (repeat (failed fin) k). apply (read_end (S k)).
  - cbn [List.length] in L. destruct t as [|b t].
    + destruct (IH i q (S fuel) Q ltac:(lia)) as (x & R & X). exists x. split; [exact R|].
      destruct x as [q'|e].
      * destruct X as (E & Q' & ms & A & B & C). split; [exact E|]. split; [exact Q'|]. exists ms. split; [exact A|].
        split; [exact B|]. intros k. rewrite read_blank. apply C.
      * destruct X as (E & ms & m & C). split; [exact E|]. exists ms, m. intros k. destruct (C k) as (rs & Z). exists rs.
        now rewrite read_blank.
    + destruct (unmarshal_cases (mkMsg 0 0 []) (b :: t)) as [(d & data & U & A)|(m & e & U & NA)].
      * cbn [load_trace ReadMsg rd_err ReadMsg_loop rd_tokens rd_fin rd_ts]. rewrite U.
        cbn [msg_Dir msg_Data].
        destruct (enqueue_valid q (mkMsg d i data) Q (accepts_dir _ _ _ A)) as (q1 & E & Q1 & L1). rewrite E.
        destruct (IH ((i + 1) mod uint_max1)%N q1 fuel Q1 ltac:(lia)) as (x & R & X). exists x. split; [exact R|].
        assert (RL : forall n, read_msgs (S n) (mkReader ((b :: t) :: tokens) fin None i)
                       = (mkMsg d i data, None) :: read_msgs n (mkReader tokens fin None ((i + 1) mod uint_max1)%N)).
        { intros n. rewrite read_line by discriminate. rewrite U. reflexivity. }
        destruct x as [q'|e].
        -- destruct X as (EF & Q' & ms & A' & B & C). split; [exact EF|]. split; [exact Q'|]. exists (mkMsg d i data :: ms).
           split; [now rewrite A', L1, <- app_assoc|]. split; [apply Forall_cons; [exact (accepts_dir _ _ _ A)|exact B]|].
           intros k. cbn [List.length Nat.add]. rewrite RL, C. reflexivity.
        -- destruct X as (EF & ms & m & C). split; [exact EF|]. exists (mkMsg d i data :: ms), m. intros k.
           destruct (C k) as (rs & Z). exists rs. cbn [List.length Nat.add] in *. rewrite RL, Z. reflexivity.
      * assert (NE : e <> EOF) by (intros ->; now apply unmarshal_not_eof in U).
        exists (inr e). split.
        -- cbn [load_trace ReadMsg rd_err ReadMsg_loop rd_tokens rd_fin rd_ts]. rewrite U. destruct e; try reflexivity. now elim NE.
        -- split; [exact NE|]. exists [], m. intros k. cbn [List.length Nat.add map app].
           rewrite read_line by discriminate. rewrite U. eauto.
Qed.

(** ** The whole viewer *)

Lemma newreader_fields content fin : exists tokens e, NewReader content fin = mkReader tokens e None 0.
Proof. unfold NewReader. destruct (scan _ _) as [ts e]. eauto. Qed.

Lemma dump_cases rt defs spares content fin : Forall (fun d => (1 <= def_Len d)%Z) defs ->
  (exists q es ms, dumpTrace rt std_registry defs spares (NewReader content fin) = done (inl (q, es))
     /\ trace_of content fin ms /\ Forall (fun m => valid_dir (msg_Dir m)) ms
     /\ shows rt defs spares 0 false ms es (qlist q))
  \/ (exists ms, dumpTrace rt std_registry defs spares (NewReader content fin) = Some Panic
     /\ trace_of content fin ms /\ Forall (fun m => valid_dir (msg_Dir m)) ms
     /\ view_crashes rt defs spares 0 false ms)
  \/ (exists ms e, dumpTrace rt std_registry defs spares (NewReader content fin) = done (inr e)
     /\ bad_trace content fin ms e).
Proof.
  intros L. unfold dumpTrace, trace_of, bad_trace. destruct (newreader_fields content fin) as (tokens & e & ->).
  cbn [rd_tokens].
  destruct (load_cases e tokens 0 NewQueue (S (List.length tokens)) inv_new (Nat.lt_succ_diag_r _)) as (x & R & X).
  rewrite R. cbn [io_bind done]. destruct x as [q|er].
  - destruct X as (_ & Q & ms & E & V & K). cbn [qlist NewQueue q_all map app] in E.
    assert (LQ : List.length (qlist q) = List.length (q_all q)) by apply map_length.
    assert (V' : Forall (fun m => valid_dir (msg_Dir m)) (qlist q)) by now rewrite E.
    destruct (view_run rt defs spares L (S (List.length (q_all q))) 0 false q Q V' ltac:(lia)) as [(q' & es & W & SH)|(W & C)];
      rewrite W; cbn [io_bind done].
    + left. exists q', es, ms. rewrite <- E in *. auto.
    + right. left. exists ms. rewrite <- E in *. auto.
  - right. right. destruct X as (NE & ms & m & K). exists ms, er. split; [reflexivity|]. split; [exact NE|].
    exists m. destruct (K 0) as (rs & Z). rewrite Nat.add_0_r in Z.
    assert (RS : rs = []).
    { assert (LL : forall n r, List.length (read_msgs n r) = n).
      { clear. induction n as [|n IH]; intros r; [reflexivity|]. cbn [read_msgs].
        destruct (ReadMsg r (mkMsg 0 0 [])) as [[r' m] er]. cbn [List.length]. now rewrite IH. }
      apply (f_equal (@List.length _)) in Z. rewrite LL, app_length, map_length in Z. cbn [List.length] in Z.
      destruct rs; [reflexivity|]. cbn [List.length] in Z. lia. }
    now rewrite RS in Z.
Qed.

(** The messages of a file are determined. *)
Lemma received_prefix ms ms' e rs rs' m : e <> None ->
  map received ms ++ (m, e) :: rs = map received ms' ++ rs' ->
  Forall (fun x => snd x <> None) rs' -> ms = ms' /\ rs' = (m, e) :: rs.
Proof.
  intros NE. revert ms'. induction ms as [|a ms IH]; intros [|b ms'] E F; cbn [map app] in E.
  - auto.
  - injection E as E1 E2. now elim NE.
  - subst rs'. inversion F. now elim H1.
  - injection E as <- E. destruct (IH _ E F). subst. auto.
Qed.

Lemma trace_of_unique content fin ms ms' : trace_of content fin ms -> trace_of content fin ms' -> ms = ms'.
Proof.
  intros T T'. specialize (T (S (List.length ms'))). specialize (T' (S (List.length ms))).
  replace (List.length ms' + S (List.length ms)) with (List.length ms + S (List.length ms')) in T' by lia.
  rewrite T in T'. cbn [repeat] in T'.
  apply (received_prefix ms ms' (Some EOF) _ (repeat (failed EOF) (S (List.length ms))) (mkMsg 0 0 [])) in T';
    [now destruct T'|discriminate|].
  apply Forall_forall. intros x H. apply repeat_spec in H as ->. discriminate.
Qed.

Lemma bad_not_trace content fin ms e ms' : bad_trace content fin ms e -> ~ trace_of content fin ms'.
Proof.
  intros (NE & m & B) T. specialize (T (S (List.length ms))).
  assert (PRE : forall n k r, exists rs, read_msgs (n + k) r = read_msgs n r ++ rs).
  { clear. induction n as [|n IH]; intros k r; [exists (read_msgs k r); reflexivity|]. cbn [read_msgs Nat.add].
    destruct (ReadMsg r (mkMsg 0 0 [])) as [[r' m] er]. destruct (IH k r') as (rs & ->). now exists rs. }
  destruct (PRE (S (List.length ms)) (List.length ms') (NewReader content fin)) as (rs & P).
  rewrite B in P. replace (S (List.length ms) + List.length ms') with (List.length ms' + S (List.length ms)) in P by lia.
  rewrite T, <- app_assoc in P. cbn [app] in P. symmetry in P.
  apply received_prefix in P as [_ P]; [|discriminate|].
  - cbn [repeat] in P. injection P as _ E. now elim NE.
  - apply Forall_forall. intros x H. apply repeat_spec in H as ->. discriminate.
Qed.

Lemma dump_shows rt defs spares content fin ms : Forall (fun d => (1 <= def_Len d)%Z) defs ->
  trace_of content fin ms -> ~ view_crashes rt defs spares 0 false ms ->
  exists q es, dumpTrace rt std_registry defs spares (NewReader content fin) = done (inl (q, es))
    /\ Forall (fun m => valid_dir (msg_Dir m)) ms /\ shows rt defs spares 0 false ms es (qlist q).
Proof.
  intros L T N. destruct (dump_cases rt defs spares content fin L) as [(q & es & ms' & D & T' & V & S)|[(ms' & D & T' & V & C)|(ms' & e & D & B)]].
  - rewrite (trace_of_unique _ _ _ _ T T'). eauto.
  - rewrite (trace_of_unique _ _ _ _ T T') in N. contradiction.
  - now apply (bad_not_trace _ _ _ _ _ B) in T.
Qed.

Lemma dump_crash_iff rt defs spares content fin : Forall (fun d => (1 <= def_Len d)%Z) defs ->
  (dumpTrace rt std_registry defs spares (NewReader content fin) = Some Panic
   <-> exists ms, trace_of content fin ms /\ view_crashes rt defs spares 0 false ms).
Proof.
  intros L. destruct (dump_cases rt defs spares content fin L) as [(q & es & ms & D & T & V & S)|[(ms & D & T & V & C)|(ms & e & D & B)]];
    rewrite D; split; try discriminate.
  - intros (ms' & T' & C). rewrite (trace_of_unique _ _ _ _ T' T) in C. now apply shows_not_crashes in S.
  - eauto.
  - reflexivity.
  - intros (ms' & T' & _). now apply (bad_not_trace _ _ _ _ _ B) in T'.
Qed.

Lemma dump_fatal_iff rt defs spares content fin e : Forall (fun d => (1 <= def_Len d)%Z) defs ->
  (dumpTrace rt std_registry defs spares (NewReader content fin) = done (inr e)
   <-> exists ms, bad_trace content fin ms e).
Proof.
  intros L. destruct (dump_cases rt defs spares content fin L) as [(q & es & ms & D & T & V & S)|[(ms & D & T & V & C)|(ms & e' & D & B)]];
    rewrite D; split; try discriminate.
  - intros (ms' & B). now apply (bad_not_trace _ _ _ _ _ B) in T.
  - intros (ms' & B). now apply (bad_not_trace _ _ _ _ _ B) in T.
  - intros H. injection H as <-. eauto.
  - intros (ms' & B'). f_equal. f_equal. f_equal.
    destruct B as (NE & m & R), B' as (NE' & m' & R').
    assert (PRE : forall n k r, exists rs, read_msgs (n + k) r = read_msgs n r ++ rs).
    { clear. induction n as [|n IH]; intros k r; [exists (read_msgs k r); reflexivity|]. cbn [read_msgs Nat.add].
      destruct (ReadMsg r (mkMsg 0 0 [])) as [[r' m] er]. destruct (IH k r') as (rs & ->). now exists rs. }
    destruct (PRE (S (List.length ms)) (S (List.length ms')) (NewReader content fin)) as (rs & P).
    destruct (PRE (S (List.length ms')) (S (List.length ms)) (NewReader content fin)) as (rs' & P').
    rewrite Nat.add_comm, P', R, R', <- !app_assoc in P. cbn [app] in P.
    assert (G : forall a b x y u v, map received a ++ (x, Some e') :: u = map received b ++ (y, Some e) :: v -> e' = e).
    { clear. induction a as [|p a IH]; intros [|p' b] x y u v E; cbn [map app] in E; try discriminate;
        try (injection E; intros; discriminate).
      - injection E as _ <- _. reflexivity.
      - injection E as _ E. eapply IH; exact E. }
    symmetry in P. eapply G. exact P.
Qed.

Lemma shows_length rt defs spares n m l es left : shows rt defs spares n m l es left ->
  List.length es + List.length left <= List.length l.
Proof.
  assert (FL : forall (f : Msg -> bool) l, List.length (filter f l) <= List.length l).
  { clear. intros f l. induction l as [|x l IH]; cbn [filter List.length]; [lia|]. destruct (f x); cbn [List.length]; lia. }
  assert (NL : forall l d x rest, next_frame defs l d x rest -> List.length rest < List.length l).
  { intros l0 d x rest N. inversion N as [h l1 t r pre last f P T|h l1 t r pre y e P T]; subst;
      pose proof (picks_length _ _ _ _ P) as PL; (destruct t; [destruct pre; discriminate|]); cbn [List.length] in *; lia. }
  induction 1 as [n m|n m h l U|n m l d e rest es left N S IH|n m l d f rest ps cs evs es left N H D SH SL HA S IH];
    cbn [List.length].
  - lia.
  - specialize (FL (fun x => negb (msg_Dir x =? msg_Dir h)%N) l). lia.
  - apply NL in N. lia.
  - apply NL in N. lia.
Qed.

Lemma stamped_received i ms : exists ms', stamped i ms = map received ms' /\ List.length ms' = List.length ms
  /\ map (fun m => (msg_Dir m, msg_Data m)) ms' = map (fun m => (msg_Dir m, msg_Data m)) ms.
Proof.
  revert i; induction ms as [|m ms IH]; intros i; [exists []; auto|].
  destruct (IH (i + 1)%N) as (ms' & E & L & D). exists (mkMsg (msg_Dir m) (i mod 2 ^ 64) (msg_Data m) :: ms').
  cbn [stamped map List.length msg_Dir msg_Data]. rewrite E, L, D. auto.
Qed.

Lemma file_trace ms file : Forall readable ms -> write_msgs append_file [] ms = (file, map (fun _ => None) ms) ->
  exists ms', trace_of file EOF ms' /\ map (fun m => (msg_Dir m, msg_Data m)) ms' = map (fun m => (msg_Dir m, msg_Data m)) ms.
Proof.
  intros R W. destruct (stamped_received 0 ms) as (ms' & E & L & D). exists ms'. split; [|exact D]. intros k.
  destruct (file_roundtrip ms EOF k R) as (file' & W' & RR). rewrite W in W'. injection W' as <-.
  now rewrite L, RR, E.
Qed.
