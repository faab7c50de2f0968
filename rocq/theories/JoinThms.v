(** Joined trace files. *)
From Coq Require Import ZifyBool ZifyNat ZifyN Lia.
From Verif Require Import Base BaseFacts GoTypes Types Payload Lingo Command CommandFacts SpecPayload SpecCommand
  Handlers SpecHandlers Packet SpecPacket Hid SpecHid HidFacts HidThms Trace SpecTrace TraceFacts TraceThms
  TraceSessions Server SpecServer ServerFacts ServerThms SessionThms SpecView ViewThms RecordThms SpecEdit EditThms SpecJoin.
#[local] Opaque std_registry.

(** ** Time stamps do not matter *)

Lemma strip_one m m' : strip m' = strip m -> msg_Dir m' = msg_Dir m /\ msg_Data m' = msg_Data m.
Proof. unfold strip. intros H. injection H as A B. auto. Qed.

Lemma strip_length l l' : map strip l' = map strip l -> List.length l' = List.length l.
Proof. intros E. apply (f_equal (@List.length _)) in E. now rewrite !map_length in E. Qed.

Lemma strip_picks d l t r : picks d l t r -> forall l', map strip l' = map strip l ->
  exists t' r', picks d l' t' r' /\ map strip t' = map strip t /\ map strip r' = map strip r.
Proof.
  induction 1 as [l|m l t r D _ IH|m l t r D _ IH]; intros l' E.
  - exists [], l'. split; [apply picks_none|auto].
  - destruct l' as [|m' l']; [discriminate|]. cbn [map] in E. injection E as E0 E1 E2. destruct (IH l' E2) as (t' & r' & P & T & R).
    exists (m' :: t'), r'. split; [apply picks_take; [congruence|exact P]|]. split; [|exact R]. cbn [map]. rewrite T. unfold strip at 1 3. congruence.
  - destruct l' as [|m' l']; [discriminate|]. cbn [map] in E. injection E as E0 E1 E2. destruct (IH l' E2) as (t' & r' & P & T & R).
    exists t', (m' :: r'). split; [apply picks_skip; [congruence|exact P]|]. split; [exact T|]. cbn [map]. rewrite R. unfold strip at 1 3. congruence.
Qed.

Lemma strip_next defs l d x rest : next_frame defs l d x rest -> forall l', map strip l' = map strip l ->
  exists rest', next_frame defs l' d x rest' /\ map strip rest' = map strip rest.
Proof.
  intros N l' E. destruct N as [h l t rest pre last f P T L NE EL F|h l t rest pre x e P T L NE X];
    destruct (strip_picks _ _ _ _ P _ E) as (t' & r' & P' & T' & R'); destruct l' as [|h' l']; try discriminate;
    cbn [map] in E; injection E as E0 E1 E2; exists r'; (split; [|exact R']); destruct (strip_report _ _ T') as [Q _];
    rewrite <- E0 in *.
  - now apply next_ok with t' pre last; [|rewrite Q|..].
  - now apply next_error with t' pre x; [|rewrite Q|..].
Qed.

Lemma strip_filter d l l' : map strip l' = map strip l -> map strip (of_dir d l') = map strip (of_dir d l).
Proof.
  revert l'; induction l as [|m l IH]; intros [|m' l'] E; try discriminate; [reflexivity|]. cbn [map] in E. injection E as E0 E1 E2.
  unfold of_dir. cbn [filter]. rewrite E0. specialize (IH _ E2). unfold of_dir in IH. destruct (msg_Dir m =? d)%N; [|exact IH]. cbn [map]. rewrite IH.
  unfold strip at 1 3. congruence.
Qed.

Lemma strip_unfinished defs l l' : unfinished defs l -> map strip l' = map strip l -> unfinished defs l'.
Proof.
  intros (h & l1 & rs & -> & M & L & N) E. destruct l' as [|h' l']; [discriminate|]. exists h', l', rs. split; [reflexivity|].
  assert (D : msg_Dir h' = msg_Dir h) by (cbn [map] in E; injection E; auto).
  split; [|auto]. rewrite <- M, D. apply strip_report. now apply strip_filter.
Qed.

Lemma strip_shows rt defs spares n m l es left : shows rt defs spares n m l es left -> forall l', map strip l' = map strip l ->
  exists left', shows rt defs spares n m l' es left'.
Proof.
  induction 1 as [n m|n m h l U|n m l d e rest es left N S IH|n m l d f rest ps cs evs es left N H D SH SL HA S IH]; intros l' E.
  - destruct l'; [|discriminate]. eexists. constructor.
  - pose proof (strip_unfinished _ _ _ U E) as U'. destruct l' as [|h' l']; [discriminate|]. eexists. now apply shows_stop.
  - destruct (strip_next _ _ _ _ _ N _ E) as (rest' & N' & E'). destruct (IH _ E') as (left' & S'). exists left'. now apply shows_error with rest'.
  - destruct (strip_next _ _ _ _ _ N _ E) as (rest' & N' & E'). destruct (IH _ E') as (left' & S'). exists left'. now apply shows_frame with rest' ps cs.
Qed.

Lemma strip_crashes rt defs spares n m l : view_crashes rt defs spares n m l -> forall l', map strip l' = map strip l ->
  view_crashes rt defs spares n m l'.
Proof.
  induction 1 as [n m l d f rest N C|n m l d e rest N C IH|n m l d f rest ps cs N H D C IH]; intros l' E;
    destruct (strip_next _ _ _ _ _ N _ E) as (rest' & N' & E').
  - now apply view_crash_now with d f rest'.
  - apply view_crash_error with d e rest'; auto.
  - apply view_crash_later with d f rest' ps cs; auto.
Qed.

(** ** More messages behind *)

Lemma picks_behind d l t r k : picks d l t r -> picks d (l ++ k) t (r ++ k).
Proof. induction 1; cbn [app]; [apply picks_none|now apply picks_take|now apply picks_skip]. Qed.

Lemma next_behind defs l d x rest k : next_frame defs l d x rest -> next_frame defs (l ++ k) d x (rest ++ k).
Proof.
  intros N. destruct N as [h l t rest pre last f P T L NE EL F|h l t rest pre x e P T L NE X]; apply (picks_behind _ _ _ _ k) in P; cbn [app] in *.
  - now apply next_ok with t pre last.
  - now apply next_error with t pre x.
Qed.

Lemma crashes_behind rt defs spares n m l k : view_crashes rt defs spares n m l -> view_crashes rt defs spares n m (l ++ k).
Proof.
  induction 1 as [n m l d f rest N C|n m l d e rest N C IH|n m l d f rest ps cs N H D C IH]; apply (next_behind _ _ _ _ _ k) in N.
  - now apply view_crash_now with d f (rest ++ k).
  - now apply view_crash_error with d e (rest ++ k).
  - now apply view_crash_later with d f (rest ++ k) ps cs.
Qed.

Lemma packets_one d f evs es ps cs : shown evs = combine ps cs -> List.length ps = List.length cs ->
  packets_in (mkView d (inl f) evs :: es) = ps ++ packets_in es.
Proof.
  intros S L. unfold packets_in. cbn [flat_map vw_packets]. rewrite S. f_equal. clear S. revert cs L.
  induction ps as [|p ps IH]; intros [|c cs] L; try discriminate; [reflexivity|]. cbn [combine map fst]. f_equal. apply IH. now injection L.
Qed.

Lemma whole_next defs l d x rest : next_frame defs l d x rest -> whole defs l -> whole defs rest.
Proof. intros N W d'. exact (closed_next _ _ _ _ _ _ N (W d')). Qed.

Lemma shows_behind rt defs spares n m l es left : shows rt defs spares n m l es left -> whole defs l ->
  forall l' es' left', shows rt defs spares (n + List.length es) (mode_after m (ids_of (packets_in es))) l' es' left' ->
  shows rt defs spares n m (l ++ l') (es ++ es') left'.
Proof.
  induction 1 as [n m|n m h l U|n m l d e rest es left N S IH|n m l d f rest ps cs evs es left N H D SH SL HA S IH]; intros W l' es' left' S'.
  - cbn [List.length] in S'. rewrite Nat.add_0_r in S'. exact S'.
  - now elim (closed_unfinished _ _ _ (W _)).
  - cbn [app]. apply shows_error with (rest ++ l'); [now apply next_behind|]. apply IH; [exact (whole_next _ _ _ _ _ N W)|].
    cbn [List.length] in S'. rewrite <- plus_n_Sm in S'. exact S'.
  - cbn [app]. apply shows_frame with (rest ++ l') ps cs; auto; [now apply next_behind|]. apply IH; [exact (whole_next _ _ _ _ _ N W)|].
    cbn [List.length] in S'. rewrite <- plus_n_Sm in S'. rewrite (packets_one _ _ _ _ _ _ SH SL), ids_app, mode_after_app in S'. exact S'.
Qed.

Lemma shows_then_crash rt defs spares n m l es left : shows rt defs spares n m l es left -> whole defs l ->
  forall l', view_crashes rt defs spares (n + List.length es) (mode_after m (ids_of (packets_in es))) l' ->
  view_crashes rt defs spares n m (l ++ l').
Proof.
  induction 1 as [n m|n m h l U|n m l d e rest es left N S IH|n m l d f rest ps cs evs es left N H D SH SL HA S IH]; intros W l' C.
  - cbn [List.length] in C. rewrite Nat.add_0_r in C. exact C.
  - now elim (closed_unfinished _ _ _ (W _)).
  - apply view_crash_error with d e (rest ++ l'); [now apply next_behind|]. apply IH; [exact (whole_next _ _ _ _ _ N W)|].
    cbn [List.length] in C. rewrite <- plus_n_Sm in C. exact C.
  - apply view_crash_later with d f (rest ++ l') ps cs; auto; [now apply next_behind|]. apply IH; [exact (whole_next _ _ _ _ _ N W)|].
    cbn [List.length] in C. rewrite <- plus_n_Sm in C. rewrite (packets_one _ _ _ _ _ _ SH SL), ids_app, mode_after_app in C. exact C.
Qed.

Lemma shows_later rt defs spares k n m l es left :
  shows rt defs (fun i => spares (k + i)) n m l es left -> shows rt defs spares (k + n) m l es left.
Proof.
  induction 1 as [n m|n m h l U|n m l d e rest es left N S IH|n m l d f rest ps cs evs es left N H D SH SL HA S IH].
  - constructor.
  - now constructor.
  - apply shows_error with rest; [exact N|]. now rewrite plus_n_Sm.
  - apply shows_frame with rest ps cs; auto. now rewrite plus_n_Sm.
Qed.

Lemma crashes_later rt defs spares k n m l :
  view_crashes rt defs (fun i => spares (k + i)) n m l -> view_crashes rt defs spares (k + n) m l.
Proof.
  induction 1 as [n m l d f rest N C|n m l d e rest N C IH|n m l d f rest ps cs N H D C IH].
  - now apply view_crash_now with d f rest.
  - apply view_crash_error with d e rest; [exact N|]. now rewrite plus_n_Sm.
  - apply view_crash_later with d f rest ps cs; auto. now rewrite plus_n_Sm.
Qed.

(** ** The mode *)

Lemma anew_id c b : In c [x00; x13; x38] -> exists v, forall m, mode_after m (ids_of [x00 :: c :: b]) = v.
Proof. intros [<-|[<-|[<-|[]]]]; [exists false|exists false|exists true]; intros m; reflexivity. Qed.

Lemma anew_unmarshal rt c b m m' : In c [x00; x13; x38] ->
  UnmarshalCmd rt std_registry m (x00 :: c :: b) = UnmarshalCmd rt std_registry m' (x00 :: c :: b).
Proof. intros [<-|[<-|[<-|[]]]]; reflexivity. Qed.

Lemma happens_quiet rt sp m d evs : happens rt sp m d evs -> shown evs = [] -> forall m', happens rt sp m' d evs.
Proof.
  induction 1 as [m f Hf|m f w p d m1 c e evs Hf Hw U H IH|m f d e evs Hf Hn Ho He H IH]; intros E m'.
  - now constructor.
  - discriminate.
  - apply happens_bad; auto.
Qed.

Lemma happens_anew rt sp m d evs : happens rt sp m d evs -> forall c b x l, shown evs = (x00 :: c :: b, x) :: l -> In c [x00; x13; x38] ->
  forall m', happens rt sp m' d evs.
Proof.
  induction 1 as [m f Hf|m f w p d m1 c e evs Hf Hw U H IH|m f d e evs Hf Hn Ho He H IH]; intros c0 b x l E I m'.
  - discriminate.
  - cbn [shown flat_map app] in E. injection E as E1 E2 E3. subst p. apply happens_packet with m1; auto. now rewrite (anew_unmarshal rt c0 b m' m I).
  - apply happens_bad; eauto.
Qed.

Lemma shows_anew rt defs spares n m l es left : shows rt defs spares n m l es left -> begins_anew (packets_in es) ->
  forall m', shows rt defs spares n m' l es left.
Proof.
  induction 1 as [n m|n m h l U|n m l d e rest es left N S IH|n m l d f rest ps cs evs es left N H D SH SL HA S IH]; intros B m'.
  - constructor.
  - now constructor.
  - apply shows_error with rest; [exact N|]. now apply IH.
  - rewrite (packets_one _ _ _ _ _ _ SH SL) in B. destruct ps as [|p ps].
    + destruct cs; [|discriminate]. apply shows_frame with rest [] []; [exact N|exact H|apply decodes_nil|exact SH|reflexivity|now apply happens_quiet with m|now apply IH].
    + destruct B as (c & b & -> & I). destruct cs as [|x cs]; [discriminate|]. cbn [combine] in SH.
      apply shows_frame with rest (((x00 :: c :: b) : bytes) :: ps) (x :: cs); [exact N|exact H| |exact SH|exact SL| |].
      * apply decodes_dec in D. apply decodes_dec. inversion D as [|m0 p0 ps0 m1 c0 e cs0 m2 U D']; subst.
        apply dec_cons with m1 e; [now rewrite (anew_unmarshal rt c b m' m I)|].
        rewrite ids_cons, mode_after_app. rewrite ids_cons, mode_after_app in D'. destruct (anew_id c b I) as (v & V). rewrite V in *. exact D'.
      * now apply happens_anew with m c b x (combine ps cs).
      * rewrite ids_cons, mode_after_app. rewrite ids_cons, mode_after_app in S. destruct (anew_id c b I) as (v & V). rewrite V in *. exact S.
Qed.

Lemma numbers_mode ps : forall m, numbers_after m ps = mode_after m (ids_of ps).
Proof.
  induction ps as [|p ps IH]; intros m; [reflexivity|]. rewrite ids_cons, mode_after_app, <- IH. cbn [numbers_after]. f_equal.
  destruct p as [|a [|c b]]; [reflexivity|now destruct a|].
  destruct (Byte.byte_eq_dec a x00) as [-> |NA].
  - unfold ids_of. cbn [flat_map packet_id app]. change (b2n x00) with 0%N. cbn [N.eqb N.mul N.add app mode_after].
    now destruct c.
  - assert (L : (1 <= b2n a)%N).
    { destruct (N.eq_dec (b2n a) 0) as [E|E]; [|lia]. elim NA. apply b2n_inj. exact E. }
    transitivity m; [now destruct a; try (now elim NA)|].
    assert (K : forall i, In i (ids_of [a :: c :: b]) -> (65536 <= i)%N).
    { unfold ids_of. cbn [flat_map]. rewrite app_nil_r. intros i. unfold packet_id. destruct (N.eqb_spec (b2n a) 4).
      - destruct b as [|d b]; [intros []|intros [<-|[]]; lia].
      - intros [<-|[]]. lia. }
    destruct (ids_of [a :: c :: b]) as [|i l] eqn:E; [reflexivity|].
    assert (l = []) as ->.
    { unfold ids_of in E. cbn [flat_map] in E. rewrite app_nil_r in E. destruct (packet_id _); [now injection E|discriminate]. }
    specialize (K i (or_introl eq_refl)). rewrite <- handleCmdID_mode, handleCmdID_controls. unfold controls.
    destruct (N.eqb_spec i 0), (N.eqb_spec i 19), (N.eqb_spec i 56); try lia; reflexivity.
Qed.

(** ** Reading joined files *)

Definition holds_msgs (ts : list bytes) (i : N) (ms : list Msg) : Prop :=
  forall k, read_msgs (List.length ms + k) (mkReader ts EOF None i) = map received ms ++ repeat (failed EOF) k.
Definition fails_after (ts : list bytes) (i : N) (ms : list Msg) (e : goerr) : Prop :=
  exists m, read_msgs (S (List.length ms)) (mkReader ts EOF None i) = map received ms ++ [(m, Some e)].

Lemma msgs_line b t ts i ms : holds_msgs ((b :: t) :: ts) i ms ->
  exists m ms', ms = mkMsg (msg_Dir m) i (msg_Data m) :: ms' /\ Msg_UnmarshalText (mkMsg 0 0 []) (b :: t) = (m, None)
    /\ holds_msgs ts ((i + 1) mod 2 ^ 64) ms'.
Proof.
  intros H. destruct ms as [|m0 ms].
  - specialize (H 1). cbn [List.length Nat.add map app repeat] in H. rewrite read_line in H by discriminate.
    destruct (Msg_UnmarshalText (mkMsg 0 0 []) (b :: t)) as [m [e|]] eqn:U; [|discriminate].
    injection H as _ E. rewrite E in U. now apply unmarshal_not_end in U.
  - assert (H' := fun k => H k). unfold holds_msgs in *. cbn [List.length Nat.add map app] in *.
    destruct (Msg_UnmarshalText (mkMsg 0 0 []) (b :: t)) as [m [e|]] eqn:U.
    + specialize (H 0). rewrite read_line, U in H by discriminate. discriminate.
    + assert (E : m0 = mkMsg (msg_Dir m) i (msg_Data m)).
      { specialize (H 0). rewrite read_line, U in H by discriminate. unfold received in H. now injection H. }
      exists m, ms. split; [now rewrite E|]. split; [reflexivity|]. intros k. specialize (H' k). rewrite read_line, U in H' by discriminate.
      now injection H'.
Qed.

Lemma msgs_none ts i ms : holds_msgs ts i ms -> ts = [] -> ms = [].
Proof.
  intros H ->. destruct ms as [|m ms]; [reflexivity|]. specialize (H 0). rewrite read_end in H. cbn [List.length Nat.add repeat map app] in H. discriminate.
Qed.

Lemma msgs_join ts : forall i ms, holds_msgs ts i ms -> exists j, forall us k,
  read_msgs (List.length ms + k) (mkReader (ts ++ us) EOF None i) = map received ms ++ read_msgs k (mkReader us EOF None j).
Proof.
  induction ts as [|[|b t] ts IH]; intros i ms H.
  - apply msgs_none in H; [|reflexivity]. subst ms. exists i. intros us k. reflexivity.
  - destruct (IH i ms) as (j & J); [intros k; rewrite <- (H k); now rewrite read_blank|]. exists j. intros us k. cbn [app]. now rewrite read_blank.
  - destruct (msgs_line _ _ _ _ _ H) as (m & ms' & -> & U & H'). destruct (IH _ _ H') as (j & J). exists j. intros us k.
    cbn [app List.length Nat.add map]. rewrite read_line, U by discriminate. now rewrite J.
Qed.

Lemma msgs_stamp ts : forall i j ms, holds_msgs ts i ms -> exists ms', holds_msgs ts j ms' /\ map strip ms' = map strip ms.
Proof.
  induction ts as [|[|b t] ts IH]; intros i j ms H.
  - apply msgs_none in H; [|reflexivity]. subst ms. exists []. split; [intros k; apply read_end|reflexivity].
  - destruct (IH i j ms) as (ms' & H' & E); [intros k; rewrite <- (H k); now rewrite read_blank|]. exists ms'. split; [|exact E].
    intros k. rewrite read_blank. apply H'.
  - destruct (msgs_line _ _ _ _ _ H) as (m & ms1 & -> & U & H1). destruct (IH _ ((j + 1) mod 2 ^ 64)%N _ H1) as (ms' & H' & E).
    exists (mkMsg (msg_Dir m) j (msg_Data m) :: ms'). split; [|cbn [map]; now rewrite E].
    intros k. cbn [List.length Nat.add map app]. rewrite read_line, U by discriminate. now rewrite H'.
Qed.

Lemma fails_cases b t ts i ms e : fails_after ((b :: t) :: ts) i ms e ->
  (exists m ms', ms = mkMsg (msg_Dir m) i (msg_Data m) :: ms' /\ Msg_UnmarshalText (mkMsg 0 0 []) (b :: t) = (m, None)
     /\ fails_after ts ((i + 1) mod 2 ^ 64) ms' e)
  \/ (exists m, ms = [] /\ Msg_UnmarshalText (mkMsg 0 0 []) (b :: t) = (m, Some e)).
Proof.
  intros (m0 & H). rewrite read_line in H by discriminate. destruct (Msg_UnmarshalText (mkMsg 0 0 []) (b :: t)) as [m [e'|]] eqn:U.
  - right. exists m. destruct ms as [|m1 ms]; cbn [map app] in H; [|discriminate]. injection H as _ -> . auto.
  - left. destruct ms as [|m1 ms]; cbn [map app List.length] in H; [discriminate|]. unfold received at 1 in H. injection H as E H.
    exists m, ms. split; [now rewrite <- E|]. split; [reflexivity|]. exists m0. exact H.
Qed.

Lemma fails_end i ms e : e <> EOF -> ~ fails_after [] i ms e.
Proof.
  intros N (m & H). rewrite read_end in H. destruct ms as [|m1 ms]; cbn [List.length repeat map app] in H; [|discriminate]. injection H as _ H. congruence.
Qed.

Lemma fails_stamp e ts : e <> EOF -> forall i j ms, fails_after ts i ms e -> exists ms', fails_after ts j ms' e.
Proof.
  intros N. induction ts as [|[|b t] ts IH]; intros i j ms H.
  - now apply fails_end in H.
  - destruct (IH i j ms) as (ms' & m & H'); [destruct H as (m & H); exists m; now rewrite <- H|]. exists ms', m. now rewrite <- H'.
  - destruct (fails_cases _ _ _ _ _ _ H) as [(m & ms1 & -> & U & H1)|(m & -> & U)].
    + destruct (IH _ ((j + 1) mod 2 ^ 64)%N _ H1) as (ms' & m0 & H'). exists (mkMsg (msg_Dir m) j (msg_Data m) :: ms'), m0.
      cbn [List.length]. rewrite read_line, U by discriminate. rewrite H'. reflexivity.
    + exists [], m. cbn [List.length]. rewrite read_line, U by discriminate. reflexivity.
Qed.

Lemma fails_behind e ts us : e <> EOF -> forall i ms, fails_after ts i ms e -> fails_after (ts ++ us) i ms e.
Proof.
  intros N. induction ts as [|[|b t] ts IH]; intros i ms H.
  - now apply fails_end in H.
  - destruct (IH i ms) as (m & H'); [destruct H as (m & H); exists m; now rewrite <- H|]. exists m. now rewrite <- H'.
  - destruct (fails_cases _ _ _ _ _ _ H) as [(m & ms1 & -> & U & H1)|(m & -> & U)].
    + destruct (IH _ _ H1) as (m0 & H'). exists m0. cbn [List.length app]. rewrite read_line, U by discriminate. rewrite H'. reflexivity.
    + exists m. cbn [List.length app]. rewrite read_line, U by discriminate. reflexivity.
Qed.

Section Files.
  Variables (a b : bytes) (la lb : list bytes).
  Hypotheses (TA : is_text a la) (EA : a = file_of la) (TB : is_text b lb)
    (LA : Forall (fun l => (len l <= 65535)%N) la) (LB : Forall (fun l => (len l <= 65535)%N) lb).

  Lemma joined_text : is_text (a ++ b) (la ++ lb).
  Proof.
    clear LA LB. destruct TA as [NA _], TB as [NB T]. split; [now apply Forall_app|].
    assert (FA : forall x y, file_of (x ++ y) = file_of x ++ file_of y) by (intros x y; unfold file_of; now rewrite map_app, concat_app).
    rewrite EA. destruct T as [->|(pre & last & -> & NE & ->)]; [left; symmetry; apply FA|].
    right. exists (la ++ pre), last. rewrite FA, <- !app_assoc. auto.
  Qed.

  Lemma joined_reader : NewReader (a ++ b) EOF = mkReader (map dropCR la ++ map dropCR lb) EOF None 0.
  Proof. rewrite (text_reader _ _ EOF joined_text), map_app; [reflexivity|now apply Forall_app]. Qed.

  Lemma trace_join ma mb : trace_of a EOF ma -> trace_of b EOF mb -> exists mb', trace_of (a ++ b) EOF (ma ++ mb') /\ map strip mb' = map strip mb.
  Proof.
    unfold trace_of. rewrite (text_reader _ _ EOF TA LA), (text_reader _ _ EOF TB LB), joined_reader. intros HA HB.
    destruct (msgs_join _ _ _ HA) as (j & J). destruct (msgs_stamp _ _ j _ HB) as (mb' & HB' & E). exists mb'. split; [|exact E].
    intros k. rewrite app_length, <- Nat.add_assoc, J, HB', map_app, <- app_assoc. reflexivity.
  Qed.

  Lemma bad_join ma mb e : trace_of a EOF ma -> bad_trace b EOF mb e -> exists ms, bad_trace (a ++ b) EOF ms e.
  Proof.
    unfold trace_of, bad_trace. rewrite (text_reader _ _ EOF TA LA), (text_reader _ _ EOF TB LB), joined_reader. intros HA [N HB].
    destruct (msgs_join _ _ _ HA) as (j & J). destruct (fails_stamp _ _ N _ j _ HB) as (mb' & m & HB'). exists (ma ++ mb'). split; [exact N|].
    exists m. rewrite app_length, plus_n_Sm, J, HB', map_app, <- app_assoc. reflexivity.
  Qed.

  Lemma bad_behind ma e : bad_trace a EOF ma e -> bad_trace (a ++ b) EOF ma e.
  Proof.
    unfold bad_trace. rewrite (text_reader _ _ EOF TA LA), joined_reader. intros [N H]. split; [exact N|]. exact (fails_behind e _ _ N _ _ H).
  Qed.

  Variables (rt : bool) (defs : list ReportDef) (spares : nat -> bytes).
  Hypotheses (U : Forall (fun d => (1 <= def_Len d)%Z) defs).
  Notation view content spares := (printed (dumpTrace rt std_registry defs spares (NewReader content EOF))).

  (** What is viewed is decided by what is read. *)
  Lemma view_shows content sp ms es left : trace_of content EOF ms -> shows rt defs sp 0 false ms es left -> view content sp = done (inl es).
  Proof.
    intros T S. destruct (dump_shows rt defs sp content EOF ms U T (shows_not_crashes _ _ _ _ _ _ _ _ S)) as (q & es' & D & _ & S').
    rewrite D. destruct (shows_messages _ _ _ _ _ _ _ _ S _ _ S') as [_ ->]. reflexivity.
  Qed.

  Lemma view_crash content sp ms : trace_of content EOF ms -> view_crashes rt defs sp 0 false ms -> view content sp = Some Panic.
  Proof. intros T C. unfold printed. rewrite (proj2 (dump_crash_iff rt defs sp content EOF U)) by eauto. reflexivity. Qed.

  Lemma view_bad content sp ms e : bad_trace content EOF ms e -> view content sp = done (inr e).
  Proof. intros B. unfold printed. rewrite (proj2 (dump_fatal_iff rt defs sp content EOF e U)) by eauto. reflexivity. Qed.

  Lemma view_cases content sp :
    (exists es ms left, view content sp = done (inl es) /\ trace_of content EOF ms /\ shows rt defs sp 0 false ms es left)
    \/ (exists ms, view content sp = Some Panic /\ trace_of content EOF ms /\ view_crashes rt defs sp 0 false ms)
    \/ (exists ms e, view content sp = done (inr e) /\ bad_trace content EOF ms e).
  Proof.
    unfold printed. destruct (dump_cases rt defs sp content EOF U) as [(q & es & ms & -> & T & V & S)|[(ms & -> & T & V & C)|(ms & e & -> & B)]].
    - left. exists es, ms, (qlist q). auto.
    - right. left. exists ms. auto.
    - right. right. exists ms, e. auto.
  Qed.

  Lemma view_join ma ea : trace_of a EOF ma -> whole defs ma -> view a spares = done (inl ea) -> numbers_after false (packets_in ea) = false ->
    view (a ++ b) spares = behind ea (view b (fun i => spares (List.length ea + i))).
  Proof.
    intros T W V M. rewrite numbers_mode in M.
    destruct (view_cases a spares) as [(es & ms & left & V' & T' & S)|[(ms & V' & _)|(ms & e & V' & _)]]; rewrite V in V'; try discriminate.
    injection V' as <-. rewrite (trace_of_unique _ _ _ _ T' T) in S.
    destruct (view_cases b (fun i => spares (List.length ea + i))) as [(eb & mb & left' & V' & TB' & S')|[(mb & V' & TB' & C)|(mb & e & V' & B)]]; rewrite V'.
    - destruct (trace_join _ _ T TB') as (mb' & TJ & E). destruct (strip_shows _ _ _ _ _ _ _ _ S' _ E) as (left2 & S2). apply shows_later in S2.
      rewrite Nat.add_0_r in S2. apply (view_shows _ _ _ _ left2 TJ). apply (shows_behind _ _ _ _ _ _ _ _ S W). now rewrite M.
    - destruct (trace_join _ _ T TB') as (mb' & TJ & E). apply (fun X => strip_crashes _ _ _ _ _ _ X _ E) in C. apply crashes_later in C.
      rewrite Nat.add_0_r in C. apply (view_crash _ _ _ TJ). apply (shows_then_crash _ _ _ _ _ _ _ _ S W). now rewrite M.
    - destruct (bad_join _ _ _ T B) as (ms' & BJ). exact (view_bad _ _ _ _ BJ).
  Qed.

  Lemma view_join_anew ma ea eb : trace_of a EOF ma -> whole defs ma -> view a spares = done (inl ea) ->
    view b (fun i => spares (List.length ea + i)) = done (inl eb) -> begins_anew (packets_in eb) ->
    view (a ++ b) spares = done (inl (ea ++ eb)).
  Proof.
    intros T W V VB A.
    destruct (view_cases a spares) as [(es & ms & left & V' & T' & S)|[(ms & V' & _)|(ms & e & V' & _)]]; rewrite V in V'; try discriminate.
    injection V' as <-. rewrite (trace_of_unique _ _ _ _ T' T) in S.
    destruct (view_cases b (fun i => spares (List.length ea + i))) as [(eb' & mb & left' & V' & TB' & S')|[(mb & V' & TB' & C)|(mb & e & V' & B)]]; rewrite VB in V'; try discriminate.
    injection V' as <-. destruct (trace_join _ _ T TB') as (mb' & TJ & E). destruct (strip_shows _ _ _ _ _ _ _ _ S' _ E) as (left2 & S2). apply shows_later in S2.
    rewrite Nat.add_0_r in S2. apply (view_shows _ _ _ _ left2 TJ). apply (shows_behind _ _ _ _ _ _ _ _ S W). now apply shows_anew with false.
  Qed.

  Lemma view_join_bad e : view a spares = done (inr e) -> view (a ++ b) spares = done (inr e).
  Proof.
    intros V. destruct (view_cases a spares) as [(es & ms & left & V' & _)|[(ms & V' & _)|(ms & e' & V' & B)]]; rewrite V in V'; try discriminate.
    injection V' as <-. exact (view_bad _ _ _ _ (bad_behind _ _ B)).
  Qed.

  Lemma view_join_crash sp : view a spares = Some Panic -> (exists e, view b sp = done (inr e) /\ view (a ++ b) spares = done (inr e))
    \/ (forall e, view b sp <> done (inr e)) /\ view (a ++ b) spares = Some Panic.
  Proof.
    intros V. destruct (view_cases a spares) as [(es & ms & left & V' & _)|[(ms & V' & T & C)|(ms & e' & V' & B)]]; rewrite V in V'; try discriminate.
    destruct (view_cases b sp) as [(eb & mb & left' & VB & TB' & S')|[(mb & VB & TB' & _)|(mb & e & VB & B)]]; rewrite VB.
    - right. split; [discriminate|]. destruct (trace_join _ _ T TB') as (mb' & TJ & E). apply (view_crash _ _ _ TJ). now apply crashes_behind.
    - right. split; [discriminate|]. destruct (trace_join _ _ T TB') as (mb' & TJ & E). apply (view_crash _ _ _ TJ). now apply crashes_behind.
    - left. exists e. split; [reflexivity|]. destruct (bad_join _ _ _ T B) as (ms' & BJ). exact (view_bad _ _ _ _ BJ).
  Qed.
End Files.

(** ** What is sent *)

Lemma sent_join xs ys : Forall (fun x => exists d, x = Some d /\ 3 <= List.length d) xs -> sent_of (xs ++ ys) = sent_of xs ++ sent_of ys.
Proof.
  induction 1 as [|x xs (d & -> & L) _ IH]; [reflexivity|]. cbn [app sent_of]. destruct (Nat.leb_spec 3 (List.length d)); [|lia].
  cbn [app]. now rewrite IH.
Qed.

Lemma sent_cut xs ys : ~ Forall (fun x => exists d, x = Some d /\ 3 <= List.length d) xs -> sent_of (xs ++ ys) = sent_of xs.
Proof.
  induction xs as [|x xs IH]; intros N; [elim N; constructor|]. cbn [app sent_of]. destruct x as [d|]; [|reflexivity].
  destruct (Nat.leb_spec 3 (List.length d)); [|reflexivity]. rewrite IH; [reflexivity|]. intros F. apply N. constructor; [eauto|exact F].
Qed.
