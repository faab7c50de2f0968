(** Lemmas for C105. *)
From Coq Require Import ZifyBool ZifyNat ZifyN Lia.
From Verif Require Import Base BaseFacts SpecProtocol ProtocolFacts ProtocolThms Hid SpecHid Server SpecServer SpecWire ProtocolProps ProtocolMore SpecRetry.

(** ** The rows *)

Definition asks (s : saying) : bool := match s with Question _ _ => true | _ => false end.

Definition calm (f : reaction) : Prop := forall m c m1 l, f m c = Some (m1, l) ->
  f m1 c = Some (m1, l) /\ numbered m1 = numbered m /\ forallb (fun s => negb (asks s)) l = true.

Definition settles (f : reaction) : Prop := forall m c m1 l, f m c = Some (m1, l) ->
  numbered m1 = numbered m /\ forall m', numbered m' = numbered m1 -> extended m' = extended m1 ->
    exists m2 l2, f m' c = Some (m2, l2) /\ numbered m2 = numbered m' /\ extended m2 = extended m'.

Definition is_delicate (id : bytes) : bool :=
  existsb (fun x => if list_eq_dec Byte.byte_eq_dec id x then true else false) [[x00; x05]; [x00; x06]; [x00; x15]; [x00; x3b]; [x03; x0c]].

Lemma calm_same f : (forall m c m1 l, f m c = Some (m1, l) -> m1 = m /\ forallb (fun s => negb (asks s)) l = true) -> calm f.
Proof. intros H m c m1 l E. destruct (H _ _ _ _ E) as [-> Q]. auto. Qed.

Ltac one_row :=
  repeat match goal with
  | |- context [match ?x with _ => _ end] => destruct x
  | H : Some _ = Some _ |- _ => injection H as <- <-
  | H : None = Some _ |- _ => discriminate H
  end.

Lemma calm_const f (g : memory -> bytes -> list saying) : (forall m c, f m c = Some (m, g m c)) ->
  (forall m c, forallb (fun s => negb (asks s)) (g m c) = true) -> calm f.
Proof. intros E Q m c m1 l F. rewrite E in F. injection F as <- <-. rewrite E. auto. Qed.

Lemma rows_calm rt clock : Forall (fun r : request => is_delicate (fst (fst r)) = false -> calm (snd r)) (requests rt clock).
Proof.
  unfold requests.
  repeat (apply Forall_cons; [cbn [fst snd]; intros H; vm_compute in H; try discriminate H; clear H|]); [..|apply Forall_nil];
  try (eapply calm_const; [intros m c; reflexivity|intros m c; reflexivity]).
  - eapply calm_const; [intros m c; reflexivity|]. intros m c. cbn. destruct (forallb (Byte.eqb x00) _); reflexivity.
  - intros m c m1 l E. injection E as <- <-. split; [reflexivity|]. split; reflexivity.
  - apply calm_same. intros m c m1 l E. unfold identification in E. destruct c as [|n r]; [injection E as <- <-; auto|].
    destruct (tokens rt _ r) as [l'| |]; [|injection E as <- <-; auto|discriminate E].
    destruct (forallb _ l'); injection E as <- <-; auto.
  - apply calm_same. intros m c m1 l E. unfold launch in E. destruct (Nat.ltb _ _); [discriminate E|]. injection E as <- <-. auto.
  - apply calm_same. intros m c m1 l E. unfold track_display in E. destruct c as [|ty c]; [injection E as <- <-; auto|].
    destruct ty; injection E as <- <-; (split; [reflexivity|]); try reflexivity; destruct (_ <? 8)%N; reflexivity.
Qed.

Lemma settles_const f (g : memory -> bytes -> list saying) : (forall m c, f m c = Some (m, g m c)) -> settles f.
Proof. intros E m c m1 l F. rewrite E in F. injection F as <- <-. split; [reflexivity|]. intros m' _ _. rewrite E. eauto. Qed.

Lemma settles_state f : (forall c, (forall m, f m c = None) \/ exists l, forall m, f m c = Some (m, l)) -> settles f.
Proof.
  intros H m c m1 l E. destruct (H c) as [N|(l' & Y)]; [rewrite N in E; discriminate|]. rewrite Y in E. injection E as <- <-.
  split; [reflexivity|]. intros m' _ _. rewrite Y. eauto.
Qed.

Lemma settles_switch to c : settles (switch to c).
Proof.
  intros m x m1 l E. unfold switch in *.
  assert (N : numbered m1 = numbered m /\ extended m1 = to).
  { destruct (Bool.eqb (extended m) to) eqn:B; injection E as <- <-; [apply eqb_prop in B|]; auto. }
  destruct N as [N X]. split; [exact N|]. intros m' _ X'. rewrite X', X, eqb_reflx. do 2 eexists. split; [reflexivity|]. split; [reflexivity|congruence].
Qed.

Lemma rows_settle rt clock : Forall (fun r : request => settles (snd r)) (requests rt clock).
Proof.
  unfold requests.
  repeat (apply Forall_cons; [cbn [fst snd]|]); [..|apply Forall_nil];
  try (eapply settles_const; intros m c; reflexivity).
  - apply settles_switch.
  - apply settles_switch.
  - apply settles_state. intros c. right. unfold certificate.
    destruct c as [|a [|b r]]; try (eexists; reflexivity). destruct (_ <? 2)%N; [eexists; reflexivity|].
    destruct r as [|s [|l r]]; try (eexists; reflexivity). destruct (_ <? _)%N; eexists; reflexivity.
  - intros m c m1 l E. injection E as <- <-. split; [reflexivity|]. intros m' _ _. do 2 eexists. split; [reflexivity|]. split; reflexivity.
  - apply settles_state. intros c. unfold identification. destruct c as [|n r]; [right; eexists; reflexivity|].
    destruct (tokens rt _ r) as [l'| |]; [|right; eexists; reflexivity|left; reflexivity].
    destruct (forallb _ l'); right; eexists; reflexivity.
  - apply settles_state. intros c. unfold launch. destruct (Nat.ltb _ _); [left; reflexivity|right; eexists; reflexivity].
  - assert (D : forall c, c = [x09] \/ exists l, forall m, player_state clock m c = Some (m, l)).
    { intros [|ty [|]]; [right; eexists; reflexivity| |right; unfold player_state; destruct ty; eexists; reflexivity].
      destruct ty; try (right; eexists; reflexivity). now left. }
    intros m c m1 l E. destruct (D c) as [-> |(l' & Y)].
    + injection E as <- <-. split; [reflexivity|]. intros m' _ _. do 2 eexists. split; [reflexivity|]. split; reflexivity.
    + rewrite Y in E. injection E as <- <-. split; [reflexivity|]. intros m' _ _. rewrite Y. eauto.
  - apply settles_state. intros c. right. unfold track_display. destruct c as [|ty c]; [eexists; reflexivity|].
    destruct ty; eexists; reflexivity.
Qed.

Lemma rows_still rt clock : Forall (fun r : request => is_delicate (fst (fst r)) = false ->
  (if list_eq_dec Byte.byte_eq_dec (fst (fst r)) [x00; x38] then true else false) = false ->
  forall m c m1 l, snd r m c = Some (m1, l) -> m1 = m) (requests rt clock).
Proof.
  unfold requests.
  repeat (apply Forall_cons; [cbn [fst snd]; intros H H'; vm_compute in H, H'; try discriminate H; try discriminate H'; clear H H'|]); [..|apply Forall_nil];
  try (intros m c m1 l E; injection E as <- _; reflexivity).
  - intros m c m1 l E. unfold identification in E. destruct c as [|n r]; [injection E as <- _; reflexivity|].
    destruct (tokens rt _ r) as [l'| |]; [|injection E as <- _; reflexivity|discriminate E]. destruct (forallb _ l'); injection E as <- _; reflexivity.
  - intros m c m1 l E. unfold launch in E. destruct (Nat.ltb _ _); [discriminate E|]. injection E as <- _. reflexivity.
  - intros m c m1 l E. unfold track_display in E. destruct c as [|ty c]; [injection E as <- _; reflexivity|].
    destruct ty; injection E as <- _; reflexivity.
Qed.

#[local] Opaque requests.

(** ** Packets *)

Lemma understood_row numbers rs b t c f : understand numbers rs b = Some (t, c, f) -> exists id size, In (id, size, f) rs.
Proof.
  rewrite understand_eq. destruct (find (ProtocolThms.fits b) rs) as [[[id [n|]] g]|] eqn:F.
  - apply find_some in F as [I _]. destruct (Nat.eqb _ _); intros E; injection E as _ _ <-; eauto.
  - apply find_some in F as [_ F]. discriminate F.
  - destruct rs as [|[[id size] g] [|]]; try discriminate. destruct (take_number numbers b) as [[t' c']|]; [|discriminate].
    destruct size as [n|]; [destruct (Nat.ltb _ _); [discriminate|]|]; intros E; injection E as _ _ <-; do 2 eexists; left; reflexivity.
Qed.

Lemma switched_twice e id : switched (switched e id) id = switched e id.
Proof.
  unfold switched. destruct id as [|a id]; [reflexivity|]. destruct a; try reflexivity.
  destruct id as [|c [|]]; try (destruct c; reflexivity); reflexivity.
Qed.

Lemma calm_numbers t l : forallb (fun s => negb (asks s)) l = true -> forall n, fst (with_numbers t n l) = n.
Proof.
  induction l as [|s l IH]; intros Q n; [reflexivity|]. cbn [forallb] in Q. apply andb_prop in Q as [Q1 Q2]. specialize (IH Q2 n).
  destruct s as [id c| |id c]; cbn [with_numbers]; try discriminate Q1; destruct (with_numbers t n l); exact IH.
Qed.

Lemma delicate_id p pre b : split_id p = Some (pre, b) -> ~ delicate p -> is_delicate pre = false.
Proof.
  intros S N. destruct (is_delicate pre) eqn:D; [|reflexivity]. exfalso. apply N. apply split_parts in S. subst p.
  unfold is_delicate in D. apply existsb_exists in D as (x & I & D). destruct (list_eq_dec Byte.byte_eq_dec pre x) as [->|]; [|discriminate D].
  cbn [In] in I. decompose [or] I; try contradiction; subst x; do 3 eexists; (split; [reflexivity|]); cbn; tauto.
Qed.

(** A packet that is not delicate, received again. *)
Lemma received_again rt clock m p m1 l : receive rt clock m p = Some (m1, l) -> ~ delicate p -> receive rt clock m1 p = Some (m1, l).
Proof.
  destruct (split_id p) as [[pre b]|] eqn:S.
  2:{ unfold receive. rewrite S. intros E _. injection E as <- <-. reflexivity. }
  intros R N. apply (delicate_id p pre b S) in N.
  rewrite (receive_react rt clock m p pre b S) in R. rewrite (receive_react rt clock m1 p pre b S).
  pose proof (rows_calm rt clock) as T. revert T R. generalize (requests rt clock). intros rows T R.
  unfold react in *. cbn [numbered] in *. destruct (understand (switched (numbered m) pre) _ b) as [[[t c] f]|] eqn:U.
  - unfold answered in R. destruct (f _ c) as [[m2 l2]|] eqn:F; [|discriminate].
    pose proof U as IN. apply understood_row in IN as (id & size & IN). apply filter_In in IN as [IN ID]. cbn [fst] in ID.
    destruct (list_eq_dec Byte.byte_eq_dec pre id) as [<-|]; [|discriminate ID].
    rewrite Forall_forall in T. specialize (T _ IN N). cbn [snd] in T. destruct (T _ _ _ _ F) as (F' & N1 & Q). cbn [numbered] in N1.
    pose proof (calm_numbers t l2 Q (last_number m2)) as WN. destruct (with_numbers t (last_number m2) l2) as [n rs] eqn:W. cbn [fst] in WN. subst n.
    assert (M1 : m1 = m2) by (injection R as <- _; destruct m2; reflexivity). assert (L1 : l = rs) by (injection R as _ <-; reflexivity). subst m1 l.
    rewrite N1, switched_twice, U. unfold answered.
    replace (mkMemory (switched (numbered m) pre) (extended m2) (last_number m2) (readings m2)) with m2 by (rewrite <- N1; destruct m2; reflexivity).
    rewrite F', W. destruct m2; reflexivity.
  - injection R as <- <-. cbn [numbered extended last_number readings]. rewrite switched_twice, U. reflexivity.
Qed.

(** Any packet, received again. *)
Lemma received_settled rt clock m p m1 l : receive rt clock m p = Some (m1, l) -> forall m', numbered m' = numbered m1 -> extended m' = extended m1 ->
  exists m2 l2, receive rt clock m' p = Some (m2, l2) /\ numbered m2 = numbered m' /\ extended m2 = extended m'.
Proof.
  destruct (split_id p) as [[pre b]|] eqn:S.
  2:{ unfold receive. rewrite S. intros _ m' _ _. eauto. }
  intros R m' N' X'. rewrite (receive_react rt clock m p pre b S) in R. rewrite (receive_react rt clock m' p pre b S).
  pose proof (rows_settle rt clock) as T. revert T R. generalize (requests rt clock). intros rows T R.
  unfold react in *. cbn [numbered] in *. destruct (understand (switched (numbered m) pre) _ b) as [[[t c] f]|] eqn:U.
  - unfold answered in R. destruct (f _ c) as [[m2 l2]|] eqn:F; [|discriminate].
    pose proof U as IN. apply understood_row in IN as (id & size & IN). apply filter_In in IN as [IN ID].
    rewrite Forall_forall in T. specialize (T _ IN). cbn [snd] in T. destruct (T _ _ _ _ F) as (N1 & K). cbn [numbered] in N1.
    destruct (with_numbers t (last_number m2) l2) as [n rs]. injection R as <- _. cbn [numbered extended] in *.
    destruct (K (mkMemory (switched (numbered m') pre) (extended m') (last_number m') (readings m'))) as (m3 & l3 & E & A & B).
    + cbn [numbered]. now rewrite N', N1, switched_twice.
    + exact X'.
    + cbn [numbered extended] in A, B.
      rewrite N', N1, switched_twice, U. unfold answered. rewrite N', N1, switched_twice in E. rewrite E.
      destruct (with_numbers t (last_number m3) l3) as [n3 rs3]. do 2 eexists. split; [reflexivity|]. cbn [numbered extended].
      split; [|exact B]. rewrite A, N', N1. apply switched_twice.
  - injection R as <- _. cbn [numbered extended] in *. rewrite N', switched_twice, U. do 2 eexists. split; [reflexivity|]. cbn [numbered extended].
    auto.
Qed.

(** A packet that is not delicate and does not switch numbers leaves the memory as it is. *)
Lemma received_still rt clock m p m1 l : receive rt clock m p = Some (m1, l) -> ~ delicate p -> ~ switches p -> m1 = m.
Proof.
  destruct (split_id p) as [[pre b]|] eqn:S.
  2:{ unfold receive. rewrite S. intros E _ _. injection E as <- _. reflexivity. }
  intros R N SW. apply (delicate_id p pre b S) in N. rewrite (receive_react rt clock m p pre b S), (still_mode p pre b (numbered m) S SW) in R.
  assert (P : (if list_eq_dec Byte.byte_eq_dec pre [x00; x38] then true else false) = false).
  { destruct (list_eq_dec Byte.byte_eq_dec pre [x00; x38]) as [->|]; [|reflexivity]. exfalso. apply SW. apply split_parts in S. subst p.
    exists x38, b. split; [reflexivity|cbn; tauto]. }
  pose proof (rows_still rt clock) as T. pose proof (rows_calm rt clock) as C. revert T C R. generalize (requests rt clock). intros rows T C R.
  replace (mkMemory (numbered m) (extended m) (last_number m) (readings m)) with m in R by (destruct m; reflexivity).
  unfold react in R. destruct (understand (numbered m) _ b) as [[[t c] f]|] eqn:U; [|injection R as <- _; reflexivity].
  unfold answered in R. destruct (f m c) as [[m2 l2]|] eqn:F; [|discriminate].
  apply understood_row in U as (id & size & IN). apply filter_In in IN as [IN ID]. cbn [fst] in ID.
  destruct (list_eq_dec Byte.byte_eq_dec pre id) as [<-|]; [|discriminate ID].
  rewrite Forall_forall in T, C. specialize (T _ IN N P). specialize (C _ IN N). cbn [snd] in T, C. rewrite (T _ _ _ _ F) in *.
  destruct (C _ _ _ _ F) as (_ & _ & Q). pose proof (calm_numbers t l2 Q (last_number m)) as WN.
  destruct (with_numbers t (last_number m) l2) as [n rs]. cbn [fst] in WN. subst n. injection R as <- _. destruct m; reflexivity.
Qed.

(** ** Frames *)

Lemma frame_again rt clock m ps m1 fs : receive_frame rt clock m ps = Some (m1, fs) -> repeatable ps -> receive_frame rt clock m1 ps = Some (m1, fs).
Proof.
  intros R [D K]. unfold receive_frame in *. destruct (receive_all rt clock m ps) as [[m' l]|] eqn:E; [|discriminate].
  assert (A : receive_all rt clock m' ps = Some (m', l)).
  { destruct K as [K|K].
    - destruct ps as [|p [|]]; [injection E as <- <-; reflexivity| |cbn [List.length] in K; lia].
      cbn [receive_all] in *. destruct (receive rt clock m p) as [[m2 l2]|] eqn:R2; [|discriminate]. injection E as <- <-.
      now rewrite (received_again _ _ _ _ _ _ R2 (Forall_inv D)).
    - assert (M : m' = m); [|now rewrite M in *]. clear R. revert m m' l E. induction ps as [|p ps IH]; intros m m' l E; [injection E as <- _; reflexivity|].
      cbn [receive_all] in E. destruct (receive rt clock m p) as [[m2 l2]|] eqn:R2; [|discriminate].
      destruct (receive_all rt clock m2 ps) as [[m3 l3]|] eqn:R3; [|discriminate]. injection E as <- _.
      inversion D; subst. inversion K; subst. rewrite (IH H2 H4 _ _ _ R3). exact (received_still _ _ _ _ _ _ R2 H1 H3). }
  injection R as <- <-. now rewrite A.
Qed.

Lemma conversation_app rt clock a b : forall m, conversation rt clock m (a ++ b)
  = match conversation rt clock m a with
    | None => None
    | Some (m1, l1) => match conversation rt clock m1 b with None => None | Some (m2, l2) => Some (m2, l1 ++ l2) end
    end.
Proof.
  induction a as [|ps a IH]; intros m; cbn [app conversation].
  - destruct (conversation rt clock m b) as [[? ?]|]; reflexivity.
  - destruct (receive_frame rt clock m ps) as [[m1 l1]|]; [|reflexivity]. rewrite IH.
    destruct (conversation rt clock m1 a) as [[m2 l2]|]; [|reflexivity]. destruct (conversation rt clock m2 b) as [[m3 l3]|]; [|reflexivity].
    now rewrite app_assoc.
Qed.

Lemma conversation_again rt clock m ps m1 fs n : receive_frame rt clock m ps = Some (m1, fs) -> repeatable ps ->
  conversation rt clock m (repeat ps (S n)) = Some (m1, List.concat (repeat fs (S n))).
Proof.
  intros R K. assert (A : forall k, conversation rt clock m1 (repeat ps k) = Some (m1, List.concat (repeat fs k))).
  { induction k as [|k IH]; [reflexivity|]. cbn [repeat conversation List.concat]. now rewrite (frame_again _ _ _ _ _ _ R K), IH. }
  cbn [repeat conversation List.concat]. now rewrite R, A.
Qed.

(** Any frame of one packet. *)
Lemma conversation_settled rt clock m p m1 fs n : receive_frame rt clock m [p] = Some (m1, fs) ->
  exists m2 fs2, conversation rt clock m (repeat [p] (S n)) = Some (m2, fs2) /\ numbered m2 = numbered m1 /\ extended m2 = extended m1.
Proof.
  intros R. unfold receive_frame in R. cbn [receive_all] in R. destruct (receive rt clock m p) as [[m0 l]|] eqn:E; [|discriminate]. injection R as <- <-.
  assert (A : forall k m', numbered m' = numbered m0 -> extended m' = extended m0 ->
    exists m2 fs2, conversation rt clock m' (repeat [p] k) = Some (m2, fs2) /\ numbered m2 = numbered m0 /\ extended m2 = extended m0).
  { induction k as [|k IH]; intros m' N X; [do 2 eexists; split; [reflexivity|auto]|].
    destruct (received_settled _ _ _ _ _ _ E m' N X) as (m2 & l2 & E2 & N2 & X2). cbn [repeat conversation]. unfold receive_frame. cbn [receive_all]. rewrite E2.
    destruct (IH m2) as (m3 & fs3 & E3 & Q); [congruence|congruence|]. rewrite E3. do 2 eexists. split; [reflexivity|exact Q]. }
  destruct (A n m0 eq_refl eq_refl) as (m2 & fs2 & E2 & Q). cbn [repeat conversation]. unfold receive_frame. cbn [receive_all]. rewrite E, E2.
  do 2 eexists. split; [reflexivity|exact Q].
Qed.

Lemma departs_app defs f1 o1 f2 o2 : departs defs f1 o1 -> departs defs f2 o2 -> departs defs (f1 ++ f2) (o1 ++ o2).
Proof.
  intros D E. induction D; cbn [app]; [exact E|now apply departs_empty|]. rewrite <- app_assoc. now apply departs_frame.
Qed.

Lemma departs_split defs f1 f2 : forall o, departs defs (f1 ++ f2) o -> exists o1 o2, o = o1 ++ o2 /\ departs defs f1 o1 /\ departs defs f2 o2.
Proof.
  induction f1 as [|f f1 IH]; intros o D; [exists [], o; split; [reflexivity|split; [apply departs_end|exact D]]|].
  cbn [app] in D. inversion D; subst.
  - match goal with H : departs _ (f1 ++ f2) _ |- _ => destruct (IH _ H) as (o1 & o2 & -> & A & B) end. exists o1, o2. split; [reflexivity|]. split; [now apply departs_empty|exact B].
  - match goal with H : departs _ (f1 ++ f2) _ |- _ => destruct (IH _ H) as (o1 & o2 & -> & A & B) end. eexists _, o2. rewrite app_assoc. split; [reflexivity|].
    split; [now apply departs_frame|exact B].
Qed.

Lemma departs_repeat defs fs o n : departs defs fs o -> departs defs (List.concat (repeat fs n)) (List.concat (repeat o n)).
Proof. intros D. induction n as [|n IH]; cbn [repeat List.concat]; [apply departs_end|now apply departs_app]. Qed.

(** ** Sessions *)

Lemma repeat_sends defs rs ps n : sends defs rs ps -> Forall2 (sends defs) (repeat rs n) (repeat ps n).
Proof. intros S. induction n; cbn [repeat]; [apply Forall2_nil|now apply Forall2_cons]. Qed.

(** Runs that follow the machine's conversation. *)
Section Runs.
  Context (rt : bool) (clock : nat -> date) (defs : list ReportDef) (fuel : nat) (m0 : memory)
    (crashes : list (list Report) -> Prop) (ends_so : list (list Report) -> memory -> list bytes -> Prop).
  Context (follows : forall rss pss, Forall2 (sends defs) rss pss -> List.length (List.concat rss) < fuel ->
    match conversation rt clock m0 pss with
    | None => crashes rss
    | Some (m, fs) => exists outs, departs defs fs outs /\ ends_so rss m outs
    end).

  Lemma run_again before rs after pss1 ps pss2 n :
    Forall2 (sends defs) before pss1 -> sends defs rs ps -> Forall2 (sends defs) after pss2 -> repeatable ps ->
    List.length (List.concat (before ++ repeat rs (S n) ++ after)) < fuel ->
    crashes (before ++ [rs] ++ after) /\ crashes (before ++ repeat rs (S n) ++ after)
    \/ exists m m1 m2 o1 o o2,
         ends_so before m o1 /\ ends_so (before ++ [rs]) m1 (o1 ++ o)
         /\ ends_so (before ++ [rs] ++ after) m2 (o1 ++ o ++ o2)
         /\ ends_so (before ++ repeat rs (S n) ++ after) m2 (o1 ++ List.concat (repeat o (S n)) ++ o2).
  Proof.
  intros B S A K L. rewrite !concat_app, !app_length in L.
  assert (LR : List.length rs <= List.length (List.concat (repeat rs (Datatypes.S n)))) by (cbn [repeat List.concat]; rewrite app_length; lia).
  pose proof (follows before pss1 B ltac:(lia)) as R0.
  assert (B1 : Forall2 (sends defs) (before ++ [rs]) (pss1 ++ [ps])) by (apply Forall2_app; [exact B|apply Forall2_cons; [exact S|apply Forall2_nil]]).
  pose proof (follows _ _ B1 ltac:(rewrite concat_app, app_length; cbn [List.concat]; rewrite app_nil_r; lia)) as R1.
  assert (B2 : Forall2 (sends defs) (before ++ [rs] ++ after) (pss1 ++ [ps] ++ pss2)) by (apply Forall2_app; [exact B|apply Forall2_cons; assumption]).
  pose proof (follows _ _ B2 ltac:(rewrite !concat_app, !app_length; cbn [List.concat]; rewrite app_nil_r; lia)) as R2.
  assert (B3 : Forall2 (sends defs) (before ++ repeat rs (Datatypes.S n) ++ after) (pss1 ++ repeat ps (Datatypes.S n) ++ pss2))
    by (apply Forall2_app; [exact B|apply Forall2_app; [now apply repeat_sends|exact A]]).
  pose proof (follows _ _ B3 ltac:(rewrite !concat_app, !app_length; lia)) as R3.
  rewrite conversation_app in R1, R2, R3. destruct (conversation rt clock m0 pss1) as [[m f1]|]; [|left; split; assumption].
  rewrite conversation_app in R2, R3. cbn [conversation] in R1, R2.
  destruct (receive_frame rt clock m ps) as [[m1 f]|] eqn:F.
  2:{ left. split; [exact R2|]. cbn [repeat conversation] in R3. rewrite F in R3. exact R3. }
  rewrite (conversation_again rt clock m ps m1 f n F K) in R3. rewrite app_nil_r in R1, R2.
  destruct (conversation rt clock m1 pss2) as [[m2 f2]|]; [|left; split; assumption]. right.
  destruct R0 as (o1 & D0 & E0), R1 as (oa & D1 & E1), R2 as (ob & D2 & E2), R3 as (oc & D3 & E3).
  destruct (departs_split _ _ _ _ D1) as (o1' & o & -> & D1a & D1b). rewrite <- (departs_unique _ _ _ _ D0 D1a) in *.
  destruct (departs_split _ _ _ _ D2) as (oa' & o2' & -> & D2a & D2b). rewrite <- (departs_unique _ _ _ _ D0 D2a) in *.
  destruct (departs_split _ _ _ _ D2b) as (o' & o2 & -> & D2c & D2d). rewrite <- (departs_unique _ _ _ _ D1b D2c) in *.
  rewrite (departs_unique _ _ _ _ D3 (departs_app _ _ _ _ _ D0 (departs_app _ _ _ _ _ (departs_repeat _ _ _ (Datatypes.S n) D1b) D2d))) in E3.
  exists m, m1, m2, o1, o, o2. auto.
Qed.

  Lemma run_modes before rs pss1 p n :
    Forall2 (sends defs) before pss1 -> sends defs rs [p] ->
    List.length (List.concat (before ++ repeat rs (S n))) < fuel ->
    crashes (before ++ [rs]) /\ crashes (before ++ repeat rs (S n))
    \/ exists m1 m2 o1 o2, ends_so (before ++ [rs]) m1 o1 /\ ends_so (before ++ repeat rs (S n)) m2 o2
         /\ numbered m2 = numbered m1 /\ extended m2 = extended m1.
  Proof.
  intros B S L. rewrite concat_app, app_length in L.
  assert (LR : List.length rs <= List.length (List.concat (repeat rs (Datatypes.S n)))) by (cbn [repeat List.concat]; rewrite app_length; lia).
  assert (B1 : Forall2 (sends defs) (before ++ [rs]) (pss1 ++ [[p]])) by (apply Forall2_app; [exact B|apply Forall2_cons; [exact S|apply Forall2_nil]]).
  pose proof (follows _ _ B1 ltac:(rewrite concat_app, app_length; cbn [List.concat]; rewrite app_nil_r; lia)) as R1.
  assert (B3 : Forall2 (sends defs) (before ++ repeat rs (Datatypes.S n)) (pss1 ++ repeat [p] (Datatypes.S n)))
    by (apply Forall2_app; [exact B|now apply repeat_sends]).
  pose proof (follows _ _ B3 ltac:(rewrite concat_app, app_length; lia)) as R3.
  rewrite conversation_app in R1, R3. destruct (conversation rt clock m0 pss1) as [[m f1]|]; [|left; split; assumption].
  cbn [conversation] in R1. destruct (receive_frame rt clock m [p]) as [[m1 f]|] eqn:F.
  2:{ left. split; [exact R1|]. cbn [repeat conversation] in R3. rewrite F in R3. exact R3. }
  destruct (conversation_settled rt clock m p m1 f n F) as (m2 & f2 & E & N & X). rewrite E in R3.
  destruct R1 as (oa & _ & E1), R3 as (oc & _ & E3). right. exists m1, m2, oa, oc. auto.
Qed.
End Runs.
