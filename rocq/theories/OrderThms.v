(** Lemmas for C109. *)
From Coq Require Import ZifyBool ZifyNat ZifyN Lia.
From Verif Require Import Base BaseFacts SpecProtocol ProtocolFacts ProtocolThms Hid SpecHid Server SpecServer SpecWire ProtocolProps ProtocolMore
  SpecRetry RetryThms SpecOrder.

(** ** The rows *)

Definition steady (f : reaction) : Prop := forall c,
  (forall m, f m c = None) \/ exists l, (forall m, f m c = Some (m, l)) /\ forallb (fun s => negb (asks s)) l = true.

Definition is_tied (id : bytes) : bool :=
  existsb (fun x => if list_eq_dec Byte.byte_eq_dec (firstn 2 id) x then true else false) tied.

Lemma rows_steady rt clock : Forall (fun r : request => is_tied (fst (fst r)) = false -> steady (snd r)) (requests rt clock).
Proof.
  unfold requests.
  repeat (apply Forall_cons; [cbn [fst snd]; intros H; vm_compute in H; try discriminate H; clear H|]); [..|apply Forall_nil];
  try (intros c; right; eexists; split; [intros m; reflexivity|reflexivity]).
  - intros c. unfold identification. destruct c as [|n r]; [right; eexists; split; [reflexivity|reflexivity]|].
    destruct (tokens rt _ r) as [l'| |]; [|right; eexists; split; reflexivity|left; reflexivity].
    destruct (forallb _ l'); right; eexists; split; reflexivity.
  - intros c. unfold launch. destruct (Nat.ltb _ _); [left; reflexivity|right; eexists; split; reflexivity].
  - intros c. right. unfold track_display. destruct c as [|ty c]; [eexists; split; reflexivity|].
    destruct ty; (eexists; split; [reflexivity|]); try reflexivity.
Qed.

#[local] Opaque requests.

(** ** Packets *)

Lemma tied_id p pre b : split_id p = Some (pre, b) -> free p -> is_tied pre = false.
Proof.
  intros S F. destruct (is_tied pre) eqn:D; [|reflexivity]. exfalso. apply F. pose proof (split_parts _ _ _ S) as E.
  unfold is_tied in D. apply existsb_exists in D as (x & I & D). destruct (list_eq_dec Byte.byte_eq_dec (firstn 2 pre) x) as [X|]; [|discriminate D].
  subst p. rewrite firstn_app, X. replace (2 - List.length pre) with 0; [cbn [firstn]; now rewrite app_nil_r|].
  assert (L : List.length x = 2) by (clear -I; cbn [tied In] in I; decompose [or] I; try contradiction; subst x; reflexivity).
  rewrite <- X in L. rewrite firstn_length in L. lia.
Qed.

Lemma free_still p : free p -> ~ switches p.
Proof. intros F (c & b & -> & I). apply F. cbn [firstn]. cbn [In] in I. decompose [or] I; try contradiction; subst c; cbn; tauto. Qed.

Lemma steady_numbers t l : forallb (fun s => negb (asks s)) l = true -> forall n n', snd (with_numbers t n l) = snd (with_numbers t n' l).
Proof.
  induction l as [|s l IH]; intros Q n n'; [reflexivity|]. cbn [forallb] in Q. apply andb_prop in Q as [Q1 Q2]. specialize (IH Q2 n n').
  destruct s as [id c| |id c]; cbn [with_numbers]; try discriminate Q1; destruct (with_numbers t n l), (with_numbers t n' l); cbn [snd] in *; congruence.
Qed.

(** A free packet is answered in the same way in all memories with the same mode of numbers. *)
Lemma received_steady rt clock p : free p -> forall e,
  (forall m, numbered m = e -> receive rt clock m p = None)
  \/ exists l, forall m, numbered m = e -> receive rt clock m p = Some (m, l).
Proof.
  intros F e. destruct (split_id p) as [[pre b]|] eqn:S.
  2:{ right. exists []. intros m _. unfold receive. now rewrite S. }
  pose proof (tied_id p pre b S F) as N.
  assert (RE : forall m, numbered m = e -> receive rt clock m p
    = react (filter (fun r => if list_eq_dec Byte.byte_eq_dec pre (fst (fst r)) then true else false) (requests rt clock)) m pre b).
  { intros m _. rewrite (receive_react rt clock m p pre b S), (still_mode p pre b (numbered m) S (free_still p F)).
    f_equal. destruct m; reflexivity. }
  pose proof (rows_steady rt clock) as T. revert T RE. generalize (requests rt clock). intros rows T RE. unfold react in RE.
  destruct (understand e (filter (fun r => if list_eq_dec Byte.byte_eq_dec pre (fst (fst r)) then true else false) rows) b) as [[[t c] f]|] eqn:U.
  - pose proof U as IN. apply understood_row in IN as (id & size & IN). apply filter_In in IN as [IN ID]. cbn [fst] in ID.
    destruct (list_eq_dec Byte.byte_eq_dec pre id) as [<-|]; [|discriminate ID].
    rewrite Forall_forall in T. specialize (T _ IN N). cbn [snd] in T. destruct (T c) as [Z|(l & Y & Q)].
    + left. intros m M. rewrite (RE m M), M, U. unfold answered. now rewrite Z.
    + right. exists (snd (with_numbers t 0 l)). intros m M. rewrite (RE m M), M, U. unfold answered. rewrite Y.
      pose proof (calm_numbers t l Q (last_number m)) as A. pose proof (steady_numbers t l Q (last_number m) 0%N) as B.
      destruct (with_numbers t (last_number m) l) as [n rs]. cbn [fst snd] in A, B. subst n rs. destruct m; reflexivity.
  - right. eexists. intros m M. rewrite (RE m M), M, U. reflexivity.
Qed.

Lemma frame_steady rt clock ps : Forall free ps -> forall e,
  (forall m, numbered m = e -> receive_frame rt clock m ps = None)
  \/ exists fs, forall m, numbered m = e -> receive_frame rt clock m ps = Some (m, fs).
Proof.
  intros F e.
  assert (A : (forall m, numbered m = e -> receive_all rt clock m ps = None)
    \/ exists l, forall m, numbered m = e -> receive_all rt clock m ps = Some (m, l)).
  { induction F as [|p ps P _ IH]; [right; exists []; reflexivity|]. cbn [receive_all].
    destruct (received_steady rt clock p P e) as [Z|(l & Y)]; [left; intros m M; now rewrite (Z m M)|].
    destruct IH as [Z|(l' & Y')]; [left; intros m M; now rewrite (Y m M), (Z m M)|]. right. exists (l ++ l'). intros m M. now rewrite (Y m M), (Y' m M). }
  unfold receive_frame. destruct A as [Z|(l & Y)]; [left; intros m M; now rewrite (Z m M)|]. right. eexists. intros m M. rewrite (Y m M), M. reflexivity.
Qed.

(** ** The mode *)

Lemma rows_mode rt clock : Forall (fun r : request => forall m c m1 l, snd r m c = Some (m1, l) -> numbered m1 = numbered m) (requests rt clock).
Proof. eapply Forall_impl; [|apply rows_settle]. intros r H m c m1 l E. now destruct (H m c m1 l E). Qed.

Lemma received_mode rt clock m p m1 l : receive rt clock m p = Some (m1, l) -> ~ switches p -> numbered m1 = numbered m.
Proof.
  destruct (split_id p) as [[pre b]|] eqn:S.
  2:{ unfold receive. rewrite S. intros E _. injection E as <- _. reflexivity. }
  intros R SW. rewrite (receive_react rt clock m p pre b S), (still_mode p pre b (numbered m) S SW) in R.
  pose proof (rows_mode rt clock) as T. revert T R. generalize (requests rt clock). intros rows T R. unfold react in R. cbn [numbered] in R.
  destruct (understand (numbered m) _ b) as [[[t c] f]|] eqn:U; [|injection R as <- _; reflexivity].
  unfold answered in R. destruct (f _ c) as [[m2 l2]|] eqn:F; [|discriminate].
  apply understood_row in U as (id & size & IN). apply filter_In in IN as [IN _]. rewrite Forall_forall in T. specialize (T _ IN _ _ _ _ F). cbn [numbered] in T.
  destruct (with_numbers t (last_number m2) l2) as [n rs]. injection R as <- _. exact T.
Qed.

Lemma frame_mode rt clock m ps m1 fs : receive_frame rt clock m ps = Some (m1, fs) -> Forall (fun p => ~ switches p) ps -> numbered m1 = numbered m.
Proof.
  unfold receive_frame. destruct (receive_all rt clock m ps) as [[m' l]|] eqn:E; [|discriminate]. intros R K. injection R as <- _.
  revert m l E. induction K as [|p ps P _ IH]; intros m l E; [injection E as <- _; reflexivity|].
  cbn [receive_all] in E. destruct (receive rt clock m p) as [[m2 l2]|] eqn:R2; [|discriminate].
  destruct (receive_all rt clock m2 ps) as [[m3 l3]|] eqn:R3; [|discriminate]. injection E as <- _.
  rewrite (IH _ _ R3). exact (received_mode _ _ _ _ _ _ R2 P).
Qed.

Lemma conversation_mode rt clock pss : Forall (Forall (fun p => ~ switches p)) pss ->
  forall m m1 fs, conversation rt clock m pss = Some (m1, fs) -> numbered m1 = numbered m.
Proof.
  induction 1 as [|ps pss P _ IH]; intros m m1 fs E; [injection E as <- _; reflexivity|]. cbn [conversation] in E.
  destruct (receive_frame rt clock m ps) as [[m2 l2]|] eqn:R; [|discriminate]. destruct (conversation rt clock m2 pss) as [[m3 l3]|] eqn:R3; [|discriminate].
  injection E as <- _. rewrite (IH _ _ _ R3). exact (frame_mode _ _ _ _ _ _ R P).
Qed.

(** ** Sessions *)

Section Runs.
  Context (rt : bool) (clock : nat -> date) (defs : list ReportDef) (fuel : nat) (m0 : memory)
    (crashes : list (list Report) -> Prop) (ends_so : list (list Report) -> memory -> list bytes -> Prop).
  Context (follows : forall rss pss, Forall2 (sends defs) rss pss -> List.length (List.concat rss) < fuel ->
    match conversation rt clock m0 pss with
    | None => crashes rss
    | Some (m, fs) => exists outs, departs defs fs outs /\ ends_so rss m outs
    end).

  Lemma run_moved before rs between after pss1 ps pssb pss2 :
    Forall2 (sends defs) before pss1 -> sends defs rs ps -> Forall2 (sends defs) between pssb -> Forall2 (sends defs) after pss2 ->
    Forall free ps -> Forall (Forall (fun p => ~ switches p)) pssb ->
    List.length (List.concat (before ++ [rs] ++ between ++ after)) < fuel ->
    crashes (before ++ [rs] ++ between ++ after) /\ crashes (before ++ between ++ [rs] ++ after)
    \/ exists m m2 o1 o ob o2,
         ends_so before m o1 /\ ends_so (before ++ [rs]) m (o1 ++ o)
         /\ ends_so (before ++ [rs] ++ between ++ after) m2 (o1 ++ o ++ ob ++ o2)
         /\ ends_so (before ++ between ++ [rs] ++ after) m2 (o1 ++ ob ++ o ++ o2).
  Proof.
    intros B S M A F K L. rewrite !concat_app, !app_length in L. cbn [List.concat] in L. rewrite app_nil_r in L.
    pose proof (follows before pss1 B ltac:(lia)) as R0.
    assert (B1 : Forall2 (sends defs) (before ++ [rs]) (pss1 ++ [ps])) by (apply Forall2_app; [exact B|apply Forall2_cons; [exact S|apply Forall2_nil]]).
    pose proof (follows _ _ B1 ltac:(rewrite concat_app, app_length; cbn [List.concat]; rewrite app_nil_r; lia)) as R1.
    assert (B2 : Forall2 (sends defs) (before ++ [rs] ++ between ++ after) (pss1 ++ [ps] ++ pssb ++ pss2))
      by (apply Forall2_app; [exact B|apply Forall2_cons; [exact S|apply Forall2_app; assumption]]).
    pose proof (follows _ _ B2 ltac:(rewrite !concat_app, !app_length; cbn [List.concat]; rewrite app_nil_r; lia)) as R2.
    assert (B3 : Forall2 (sends defs) (before ++ between ++ [rs] ++ after) (pss1 ++ pssb ++ [ps] ++ pss2))
      by (apply Forall2_app; [exact B|apply Forall2_app; [exact M|apply Forall2_cons; assumption]]).
    pose proof (follows _ _ B3 ltac:(rewrite !concat_app, !app_length; cbn [List.concat]; rewrite app_nil_r; lia)) as R3.
    rewrite !conversation_app in R1, R2, R3. destruct (conversation rt clock m0 pss1) as [[m f1]|]; [|left; split; assumption].
    rewrite !conversation_app in R2, R3. cbn [conversation] in R1, R2.
    destruct (frame_steady rt clock ps F (numbered m)) as [Z|(fs & Y)].
    - left. rewrite (Z m eq_refl) in R2. split; [exact R2|].
      destruct (conversation rt clock m pssb) as [[mb fb]|] eqn:CB; [|exact R3]. cbn [app conversation] in R3.
      now rewrite (Z mb (conversation_mode _ _ _ K _ _ _ CB)) in R3.
    - rewrite (Y m eq_refl) in R1, R2. rewrite !conversation_app in R2. rewrite app_nil_r in R1, R2.
      destruct (conversation rt clock m pssb) as [[mb fb]|] eqn:CB; [|left; split; assumption].
      cbn [app conversation] in R3. rewrite (Y mb (conversation_mode _ _ _ K _ _ _ CB)) in R3.
      destruct (conversation rt clock mb pss2) as [[m2 f2]|]; [|left; split; assumption]. right.
      destruct R0 as (o1 & D0 & E0), R1 as (oa & D1 & E1), R2 as (oc & D2 & E2), R3 as (od & D3 & E3).
      destruct (departs_split _ _ _ _ D1) as (o1' & o & -> & D1a & D1b). rewrite <- (departs_unique _ _ _ _ D0 D1a) in *.
      destruct (departs_split _ _ _ _ D2) as (oa' & o2' & -> & D2a & D2b). rewrite <- (departs_unique _ _ _ _ D0 D2a) in *.
      destruct (departs_split _ _ _ _ D2b) as (o' & o2'' & -> & D2c & D2d). rewrite <- (departs_unique _ _ _ _ D1b D2c) in *.
      destruct (departs_split _ _ _ _ D2d) as (ob & o2 & -> & D2e & D2f).
      rewrite (departs_unique _ _ _ _ D3 (departs_app _ _ _ _ _ D0 (departs_app _ _ _ _ _ D2e (departs_app _ _ _ _ _ D1b D2f)))) in E3.
      exists m, m2, o1, o, ob, o2. auto.
  Qed.

  (** What a frame of free packets leads to in mode [e]. *)
  Definition leads (e : bool) (x : list Report * option (list bytes)) (ps : list bytes) : Prop :=
    sends defs (fst x) ps /\ Forall free ps /\
    match snd x with
    | None => forall m, numbered m = e -> receive_frame rt clock m ps = None
    | Some o => exists fs, departs defs fs o /\ forall m, numbered m = e -> receive_frame rt clock m ps = Some (m, fs)
    end.

  Lemma leads_all e xs : Forall (fun x => exists ps, leads e x ps) xs -> exists pss,
    Forall2 (sends defs) (map fst xs) pss
    /\ match all_there (map snd xs) with
       | None => forall m, numbered m = e -> conversation rt clock m pss = None
       | Some os => exists fs, departs defs fs (List.concat os) /\ forall m, numbered m = e -> conversation rt clock m pss = Some (m, fs)
       end.
  Proof.
    induction 1 as [|[rs o] xs (ps & S & F & X) _ (pss & SS & IH)]; [exists []; split; [apply Forall2_nil|exists []; split; [apply departs_end|reflexivity]]|].
    cbn [fst snd] in *. exists (ps :: pss). split; [cbn [map fst]; now apply Forall2_cons|]. cbn [map snd all_there conversation]. destruct o as [o|].
    - destruct X as (fs & D & Y). destruct (all_there (map snd xs)) as [os|].
      + destruct IH as (fs' & D' & Y'). exists (fs ++ fs'). split; [cbn [List.concat]; now apply departs_app|]. intros m M. now rewrite (Y m M), (Y' m M).
      + intros m M. now rewrite (Y m M), (IH m M).
    - intros m M. now rewrite (X m M).
  Qed.

  Lemma run_free before block after pss1 pssb pss2 :
    Forall2 (sends defs) before pss1 -> Forall2 (sends defs) block pssb -> Forall2 (sends defs) after pss2 ->
    Forall (Forall free) pssb ->
    List.length (List.concat (before ++ block ++ after)) < fuel ->
    (forall block', incl block' block -> List.length (List.concat (before ++ block' ++ after)) < fuel -> crashes (before ++ block' ++ after))
    \/ exists m o1 o2 answered, map fst answered = block
         /\ forall answered', incl answered' answered ->
              List.length (List.concat (before ++ map fst answered' ++ after)) < fuel ->
              match all_there (map snd answered') with
              | None => crashes (before ++ map fst answered' ++ after)
              | Some os => ends_so (before ++ map fst answered' ++ after) m (o1 ++ List.concat os ++ o2)
              end.
  Proof.
    intros B M A F L.
    assert (SB : forall block', incl block' block -> exists pss', Forall2 (sends defs) block' pss').
    { intros block' I. induction block' as [|rs block' IH]; [exists []; apply Forall2_nil|].
      destruct IH as (pss' & S'); [intros x X; apply I; now right|]. assert (X : In rs block) by (apply I; now left).
      clear -M X S'. induction M as [|r p bl pb S _ IH']; [contradiction|]. destruct X as [->|X]; [exists (p :: pss'); now apply Forall2_cons|now apply IH']. }
    destruct (conversation rt clock m0 pss1) as [[m f1]|] eqn:C1.
    2:{ left. intros block' I L'. destruct (SB block' I) as (pss' & S').
        pose proof (follows _ _ (Forall2_app B (Forall2_app S' A)) L') as R. rewrite conversation_app, C1 in R. exact R. }
    pose proof (follows _ _ B ltac:(rewrite concat_app, app_length in L; lia)) as R1. rewrite C1 in R1. destruct R1 as (o1 & D1 & _).
    assert (K : exists answered, map fst answered = block /\ Forall (fun x => exists ps, leads (numbered m) x ps) answered).
    { clear SB A. rewrite !concat_app, !app_length in L. induction M as [|rs ps block pssb S _ IH]; [exists []; split; [reflexivity|apply Forall_nil]|].
      inversion F; subst. cbn [List.concat] in L. rewrite app_length in L. destruct IH as (an & E & K); [assumption|lia|].
      destruct (frame_steady rt clock ps ltac:(assumption) (numbered m)) as [Z|(fs & Y)].
      - exists ((rs, None) :: an). split; [cbn [map fst]; now f_equal|]. apply Forall_cons; [|exact K]. exists ps. split; [exact S|]. split; [assumption|exact Z].
      - assert (B1 : Forall2 (sends defs) (before ++ [rs]) (pss1 ++ [ps])) by (apply Forall2_app; [exact B|apply Forall2_cons; [exact S|apply Forall2_nil]]).
        pose proof (follows _ _ B1 ltac:(rewrite concat_app, app_length; cbn [List.concat]; rewrite app_nil_r; lia)) as R1.
        rewrite conversation_app, C1 in R1. cbn [conversation] in R1. rewrite (Y m eq_refl), app_nil_r in R1. destruct R1 as (oo & D & _).
        destruct (departs_split _ _ _ _ D) as (? & o & -> & _ & Do).
        exists ((rs, Some o) :: an). split; [cbn [map fst]; now f_equal|]. apply Forall_cons; [|exact K]. exists ps. split; [exact S|]. split; [assumption|].
        exists fs. split; [exact Do|exact Y]. }
    destruct K as (an & E & K).
    destruct (conversation rt clock m pss2) as [[m2 f2]|] eqn:C2.
    - right.
      pose proof (follows _ _ (Forall2_app B A) ltac:(rewrite !concat_app, !app_length in *; lia)) as R2.
      rewrite conversation_app, C1, C2 in R2. destruct R2 as (oo & DD & _). destruct (departs_split _ _ _ _ DD) as (? & o2 & -> & _ & D2).
      exists m2, o1, o2, an. split; [exact E|]. intros an' I L'.
      assert (K' : Forall (fun x => exists ps, leads (numbered m) x ps) an') by (rewrite Forall_forall in *; auto).
      destruct (leads_all _ _ K') as (pss' & S' & Q). pose proof (follows _ _ (Forall2_app B (Forall2_app S' A)) L') as R.
      rewrite !conversation_app, C1, conversation_app in R. destruct (all_there (map snd an')) as [os|].
      + destruct Q as (fs & D & Y). rewrite (Y m eq_refl), C2 in R. destruct R as (outs & D3 & E3).
        now rewrite (departs_unique _ _ _ _ D3 (departs_app _ _ _ _ _ D1 (departs_app _ _ _ _ _ D D2))) in E3.
      + now rewrite (Q m eq_refl) in R.
    - left. intros block' I L'.
      assert (X : exists an', map fst an' = block' /\ Forall (fun x => exists ps, leads (numbered m) x ps) an').
      { rewrite <- E in I. clear -I K. induction block' as [|rs block' IH]; [exists []; split; [reflexivity|apply Forall_nil]|].
        destruct IH as (an' & <- & KK); [intros x X; apply I; now right|]. assert (X : In rs (map fst an)) by (apply I; now left).
        apply in_map_iff in X as (x & <- & X). exists (x :: an'). split; [reflexivity|]. apply Forall_cons; [|exact KK]. rewrite Forall_forall in K. now apply K. }
      destruct X as (an' & <- & K'). destruct (leads_all _ _ K') as (pss' & S' & Q). pose proof (follows _ _ (Forall2_app B (Forall2_app S' A)) L') as R.
      rewrite !conversation_app, C1, conversation_app in R. destruct (all_there (map snd an')) as [os|].
      + destruct Q as (fs & D & Y). rewrite (Y m eq_refl), C2 in R. exact R.
      + now rewrite (Q m eq_refl) in R.
  Qed.
End Runs.
