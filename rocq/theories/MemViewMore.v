(** Lemmas for C103: what the viewer finds behind the frames of an orderly trace. *)
From Coq Require Import ZifyBool ZifyNat ZifyN Lia.
From Verif Require Import Base BaseFacts GoTypes Types Payload Lingo Command Handlers Packet SpecPacket Hid SpecHid Trace SpecTrace TraceSessions
  Server SpecServer Mem MemFacts MemView SpecWire SpecView ViewThms SpecDamage SpecLoss HidThms LossThms ProtocolProps MemViewThms SpecMemView.
#[local] Opaque std_registry.

Lemma app_eq_app_len {A} (a b c d : list A) : (a ++ b = c ++ d)%list -> List.length a = List.length c -> a = c /\ b = d.
Proof.
  revert c; induction a as [|x a IH]; intros [|y c] E L; try discriminate; [auto|].
  cbn [app] in E. injection E as <- E. destruct (IH c E) as [-> ->]; [cbn [List.length] in L; lia|auto].
Qed.

(** Two devices that give the same reads. *)
Section Alike.
Context {D1 D2 : Type} (R : D1 -> D2 -> Prop) (rd1 : D1 -> io (D1 * raw_read)) (rd2 : D2 -> io (D2 * raw_read)).
Hypothesis R_step : forall d1 d2, R d1 d2 -> exists d1' d2' x, rd1 d1 = done (d1', x) /\ rd2 d2 = done (d2', x) /\ R d1' d2'.

Lemma mem_alike defs pol fuel : forall m d1 d2 m' d2' r, R d1 d2 ->
  ReadFrame_mem_loop fuel defs pol rd2 m d2 = done (m', d2', r) ->
  exists d1', ReadFrame_mem_loop fuel defs pol rd1 m d1 = done (m', d1', r) /\ R d1' d2'.
Proof.
  induction fuel as [|fuel IH]; intros m d1 d2 m' d2' r H E; [discriminate|].
  destruct (R_step _ _ H) as (e1 & e2 & x & E1 & E2 & H'). cbn [ReadFrame_mem_loop] in *.
  rewrite E1. rewrite E2 in E. unfold done at 1 in E. unfold done at 1. cbn [io_bind] in *.
  destruct (ReadReport_mem (m_heap m) (m_raw m) x) as [h1 rep].
  assert (ST : forall a b, done (a, e2, b) = done (m', d2', r) -> exists d1', done (a, e1, b) = done (m', d1', r) /\ R d1' d2').
  { intros a b X. injection X as <- <- <-. eauto. }
  destruct rep as [report|e]; [|now apply ST].
  destruct (Find defs (Z.of_N (b2n (rr_ID report)))) as [def|e]; [|now apply ST]. cbv zeta in E |- *.
  destruct (_ <? 0)%Z; [discriminate|].
  destruct (_ =? LinkControlDone)%N; [now apply ST|].
  destruct (_ =? LinkControlMoreToFollow)%N; [eapply IH; eassumption|].
  destruct (_ =? N.lor LinkControlContinue LinkControlMoreToFollow)%N; [eapply IH; eassumption|].
  destruct (_ =? LinkControlContinue)%N; [now apply ST|]. eapply IH; eassumption.
Qed.
End Alike.

Definition read_of (m : Msg) : raw_read := (firstn maxRawSize (msg_Data m), None).

Lemma as_read_of m r : report_of m = inl r -> read_of m = as_read r.
Proof.
  unfold report_of, ReadReport, read_of, as_read. generalize (firstn maxRawSize (msg_Data m)). intros d.
  destruct d as [|a [|b [|c x]]]; intros E; try discriminate. injection E as <-. reflexivity.
Qed.

Definition tied (d : N) (q : Queue) (w : wire) : Prop :=
  qinv q /\ fst w = map read_of (of_dir d (qlist q)) /\ snd w = [].

Lemma tied_step d : valid_dir d -> forall q w, tied d q w ->
  exists q' w' x, queue_dev d q = done (q', x) /\ wire_read w = done (w', x) /\ tied d q' w'.
Proof.
  intros V q [ins o] (Q & E & O). cbn [fst snd] in E, O. subst ins o. unfold wire_read. cbn [fst snd].
  destruct (queue_dev_run d q Q V) as [(N & q' & D & Q' & S)|(m & q' & D & Q' & Hm & P)].
  - rewrite N. cbn [map]. eexists q', _, _. split; [exact D|]. split; [reflexivity|]. split; [exact Q'|]. rewrite S, N. auto.
  - rewrite (picks_of_dir _ _ _ _ P). cbn [app map]. eexists q', _, _. split; [exact D|]. split; [reflexivity|]. split; [exact Q'|]. auto.
Qed.

(** The next frame of an orderly queue. *)
Lemma next_clean defs pol q h : Forall (fun d => (1 <= def_Len d)%Z) defs ->
  qinv q -> Head q = Some h -> Forall (fun m => valid_dir (msg_Dir m)) (qlist q) ->
  (forall d, valid_dir d -> orderly defs d (qlist q)) ->
  exists m q' k f, ReadFrame_mem (S (List.length (q_all q))) defs pol (queue_dev (msg_Dir h)) new_mem q = done (m, q', inl (buf_Bytes (m_buf m)))
    /\ as_slice (m_heap m) (buf_Bytes (m_buf m)) = mkSlice f (repeat x00 k)
    /\ qinv q' /\ Forall (fun m => valid_dir (msg_Dir m)) (qlist q') /\ (forall d, valid_dir d -> orderly defs d (qlist q')).
Proof.
  intros L Q H F OD. set (dir := msg_Dir h).
  assert (X : exists l, qlist q = h :: l).
  { unfold Head in H. unfold qlist. destruct (q_all q) as [|[i x] l]; [discriminate|]. injection H as <-. cbn [map snd]. eauto. }
  destruct X as (l & EQ).
  assert (V : valid_dir dir) by (rewrite EQ in F; exact (Forall_inv F)).
  destruct (OD dir V) as (rss & fs & CA & RP).
  assert (NE : of_dir dir (qlist q) <> []).
  { rewrite EQ. unfold of_dir. cbn [filter]. fold dir. rewrite N.eqb_refl. discriminate. }
  destruct CA as [|rs f rss fs C CA].
  { exfalso. apply NE. cbn [List.concat map] in RP. destruct (of_dir dir (qlist q)); [reflexivity|discriminate]. }
  cbn [List.concat] in RP.
  assert (RD : map read_of (of_dir dir (qlist q)) = (map as_read rs ++ map as_read (List.concat rss))%list).
  { clear NE. rewrite <- map_app. revert RP. generalize (rs ++ List.concat rss). induction (of_dir dir (qlist q)) as [|m ms IH]; intros [|r rest] E; try discriminate; [reflexivity|].
    cbn [map] in *. injection E as E1 E2. rewrite (as_read_of _ _ E1). f_equal. now apply IH. }
  assert (LN : List.length rs + List.length (map as_read (List.concat rss)) < S (List.length (q_all q))).
  { apply (f_equal (@List.length _)) in RP. rewrite !map_length, app_length in RP. rewrite map_length.
    pose proof (of_dir_length dir (qlist q)). assert (LQ : List.length (qlist q) = List.length (q_all q)) by apply map_length. lia. }
  destruct (frame_clean defs pol rs f (map as_read (List.concat rss)) [] _ C LN) as (m & k & E & A).
  assert (TI : tied dir q ((map as_read rs ++ map as_read (List.concat rss))%list, [])) by (split; [exact Q|split; [symmetry; exact RD|reflexivity]]).
  destruct (mem_alike (tied dir) (queue_dev dir) wire_read (tied_step dir V) defs pol _ _ q _ _ _ _ TI E) as (q' & E' & T).
  exists m, q', k, f. split; [exact E'|]. split; [exact A|].
  pose proof (ReadFrame_mem_ok (S (List.length (q_all q))) defs pol (queue_dev dir) new_mem q new_mem_ok) as FR.
  destruct (view_next defs q h L Q H F) as (q2 & r & R2 & Q2 & F2 & D). fold dir in R2, D. rewrite R2 in FR.
  destruct FR as (m2 & r2 & FE & _ & _ & RR). change (ReadFrame_mem_loop _ defs pol (queue_dev dir) _ q) with
    (ReadFrame_mem (S (List.length (q_all q))) defs pol (queue_dev dir) new_mem q) in E'. rewrite E' in FE. unfold done in FE. injection FE as <- <- <-.
  split; [exact Q2|]. split; [exact F2|].
  destruct r as [g|e]; [|contradiction].
  destruct D as [(D & _)|(_ & NF & _)]; [discriminate|].
  assert (P : exists taken, picks dir (qlist q) taken (qlist q')) by (inversion NF; eauto).
  destruct P as (taken & P).
  intros d VD. destruct (N.eq_dec dir d) as [<-|ND].
  - destruct T as (_ & T & _). cbn [fst] in T. exists rss, fs. split; [exact CA|].
    pose proof (picks_of_dir _ _ _ _ P) as SP. rewrite SP in RP, RD. rewrite map_app in RD.
    assert (LR : List.length taken = List.length rs).
    { apply (f_equal (@List.length _)) in RD. rewrite T in RD. rewrite !app_length, !map_length in RD. 
      apply (f_equal (@List.length _)) in T. rewrite !map_length in T. lia. }
    rewrite map_app, map_app in RP. apply app_eq_app_len in RP; [tauto|]. now rewrite !map_length.
  - destruct (OD d VD) as (rss' & fs' & CA' & RP'). exists rss', fs'. split; [exact CA'|]. rewrite <- (picks_other _ _ _ _ _ P ND). exact RP'.
Qed.

Lemma view_loop_clean rt reg defs pol : Forall (fun d => (1 <= def_Len d)%Z) defs -> forall fuel mode q n,
  qinv q -> Forall (fun m => valid_dir (msg_Dir m)) (qlist q) -> (forall d, valid_dir d -> orderly defs d (qlist q)) ->
  exists spares, (forall k, zeros (spares k)) /\ forall spares', (forall k, n <= k -> spares' k = spares k) ->
    view_loop_mem fuel rt reg defs pol mode q = view_loop fuel rt reg defs spares' n mode q.
Proof.
  intros L. assert (NIL : forall k : nat, zeros ((fun _ => []) k)) by (intros k; now exists 0).
  induction fuel as [|fuel IH]; intros mode q n Q F OD; [exists (fun _ => []); split; [exact NIL|reflexivity]|].
  cbn [view_loop_mem view_loop]. destruct (Head q) as [h|] eqn:H; [|exists (fun _ => []); split; [exact NIL|reflexivity]]. cbv zeta.
  destruct (next_clean defs pol q h L Q H F OD) as (m & q' & k & f & E & A & Q' & F' & OD').
  change (fun q0 : Queue => _) with (queue_dev (msg_Dir h)). rewrite E.
  pose proof (ReadFrame_mem_ok (S (List.length (q_all q))) defs pol (queue_dev (msg_Dir h)) new_mem q new_mem_ok) as FR.
  unfold frame_result in FR. rewrite E in FR. unfold done at 1. cbn [io_bind].
  destruct (ReadFrame_dev (S (List.length (q_all q))) defs (queue_dev (msg_Dir h)) [] q) as [[[q2 r]|]|]; try discriminate.
  destruct FR as (m2 & r2 & FE & _ & _ & RR). unfold done in FE. injection FE as <- <- <-. destruct r as [g|e]; [|contradiction].
  destruct RR as [_ <-]. cbn [io_bind]. rewrite A.
  assert (LD : load (m_heap m) (buf_Bytes (m_buf m)) = f) by exact (f_equal vis A). rewrite LD.
  destruct (frame_packets rt reg mode (mkSlice f (repeat x00 k))) as [[[mode' evs]|]|] eqn:FP.
  - destruct (IH mode' q' (S n) Q' F' OD') as (sp & Z & HS).
    exists (fun i => if i =? n then repeat x00 k else sp i). split; [intros i; destruct (i =? n); [now exists k|apply Z]|].
    intros sp' AG. rewrite (AG n (le_n _)), Nat.eqb_refl, FP. cbn [io_bind]. rewrite (HS sp'); [reflexivity|].
    intros i K. rewrite AG by lia. destruct (Nat.eqb_spec i n); [lia|reflexivity].
  - exists (fun _ => repeat x00 k). split; [intros i; now exists k|]. intros sp' AG. rewrite (AG n (le_n _)), FP. reflexivity.
  - exists (fun _ => repeat x00 k). split; [intros i; now exists k|]. intros sp' AG. rewrite (AG n (le_n _)), FP. reflexivity.
Qed.

Lemma dump_clean rt defs pol content fin ms : Forall (fun d => (1 <= def_Len d)%Z) defs ->
  trace_of content fin ms -> (forall d, valid_dir d -> orderly defs d ms) ->
  exists spares, (forall k, zeros (spares k))
    /\ dumpTrace_mem rt std_registry defs pol (NewReader content fin) = dumpTrace rt std_registry defs spares (NewReader content fin).
Proof.
  intros L T OD. unfold dumpTrace_mem, dumpTrace. destruct (newreader_fields content fin) as (tokens & e & NR).
  rewrite NR in *. cbn [rd_tokens].
  destruct (load_cases e tokens 0 NewQueue (S (List.length tokens)) inv_new (Nat.lt_succ_diag_r _)) as (x & R & X).
  rewrite R. cbn [io_bind done]. destruct x as [q|er].
  2:{ exists (fun _ => []). split; [intros k; now exists 0|reflexivity]. }
  destruct X as (_ & Q & ms' & E & V & K). change (qlist q = ms') in E.
  assert (M : ms' = ms).
  { apply (trace_of_unique content fin); [|exact T]. intros k. rewrite NR. apply K. }
  rewrite M in E, V. clear M K.
  destruct (view_loop_clean rt std_registry defs pol L (S (List.length (q_all q))) false q 0 Q) as (sp & Z & H).
  - rewrite E. exact V.
  - rewrite E. exact OD.
  - exists sp. split; [exact Z|]. rewrite (H sp); [reflexivity|auto].
Qed.
