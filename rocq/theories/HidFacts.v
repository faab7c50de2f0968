From Coq Require Import ZifyBool ZifyNat ZifyN.
From Verif Require Import Base BaseFacts Hid SpecHid.
Ltac Zify.zify_post_hook ::= Z.div_mod_to_equations.

(** ** Pick and Find *)

Lemma pick_loop_spec defs : forall dir n def0,
  match pick_loop defs n dir def0 with
  | Some d => first_fit defs dir n d
              \/ (Forall (fun x => ~ fits dir n x) defs
                  /\ (last_of defs dir d \/ (none_of defs dir /\ def0 = Some d)))
  | None => none_of defs dir /\ def0 = None
  end.
Proof.
  induction defs as [|x defs IH]; intros dir n def0; cbn [pick_loop].
  - destruct def0 as [d|].
    + right. split; [apply Forall_nil|]. right. split; [apply Forall_nil|reflexivity].
    + split; [apply Forall_nil|reflexivity].
  - destruct (def_Dir x =? dir)%N eqn:D.
    + destruct (n <=? MaxPayload x)%Z eqn:E.
      * left. exists [], defs. repeat split; auto; unfold MaxPayload in E; lia.
      * assert (NF : ~ fits dir n x) by (intros [_ H]; unfold MaxPayload in E; lia).
        specialize (IH dir n (Some x)). destruct (pick_loop defs n dir (Some x)) as [d|].
        -- destruct IH as [(a & b & -> & F & A)|(A & [(a & b & -> & L & B)|(N & [= <-])])].
           ++ left. exists (x :: a), b. split; [reflexivity|]. split; auto.
           ++ right. split; [now constructor|]. left. exists (x :: a), b. auto.
           ++ right. split; [now constructor|]. left. exists [], defs. repeat split; auto. lia.
        -- destruct IH as [_ [=]].
    + assert (DN : def_Dir x <> dir) by lia.
      assert (NF : ~ fits dir n x) by (intros [H _]; lia).
      specialize (IH dir n def0). destruct (pick_loop defs n dir def0) as [d|].
      * destruct IH as [(a & b & -> & F & A)|(A & [(a & b & -> & L & B)|(N & ->)])].
        -- left. exists (x :: a), b. split; [reflexivity|]. split; auto.
        -- right. split; [now constructor|]. left. exists (x :: a), b. auto.
        -- right. split; [now constructor|]. right. split; [now constructor|auto].
      * destruct IH. split; [now constructor|auto].
Qed.

Lemma Pick_spec defs n dir :
  match Pick defs n dir with
  | inl d => choice defs dir n d
  | inr e => none_of defs dir /\ e = errNoReport
  end.
Proof.
  unfold Pick. pose proof (pick_loop_spec defs dir n None) as H.
  destruct (pick_loop defs n dir None) as [d|].
  - destruct H as [H|(A & [L|(N & [=])])]; [left; auto|right; auto].
  - destruct H; auto.
Qed.

Lemma first_fit_unique dir n a b a' b' (d d' : ReportDef) :
  a ++ d :: b = a' ++ d' :: b' -> fits dir n d -> fits dir n d' ->
  Forall (fun x => ~ fits dir n x) a -> Forall (fun x => ~ fits dir n x) a' -> d = d'.
Proof.
  revert a'; induction a as [|x a IH]; intros [|x' a'] E F F' A A'; cbn in E; injection E as E1 E2.
  - auto.
  - subst. inversion A'; contradiction.
  - subst. inversion A; contradiction.
  - inversion A; inversion A'; subst. eauto.
Qed.

Lemma last_of_unique defs dir d d' : last_of defs dir d -> last_of defs dir d' -> d = d'.
Proof.
  intros (a & b & -> & D & B) (a' & b' & E & D' & B').
  revert a' E; induction a as [|x a IH]; intros [|x' a'] E; cbn in E; injection E as E1 E2; auto.
  - subst. rewrite Forall_app in B. destruct B as [_ B]. inversion B. contradiction.
  - subst. rewrite Forall_app in B'. destruct B' as [_ B']. inversion B'. contradiction.
  - eauto.
Qed.

Lemma choice_unique defs dir n d d' : choice defs dir n d -> choice defs dir n d' -> d = d'.
Proof.
  intros [(a & b & E & F & A)|(N & L)] [(a' & b' & E' & F' & A')|(N' & L')].
  - eapply (first_fit_unique dir n a b a' b'); eauto. congruence.
  - subst. rewrite Forall_app in N'. destruct N' as [_ N']. inversion N'. contradiction.
  - subst. rewrite Forall_app in N. destruct N as [_ N]. inversion N. contradiction.
  - eapply last_of_unique; eauto.
Qed.

Lemma choice_in defs dir n d : choice defs dir n d -> In d defs /\ def_Dir d = dir.
Proof.
  intros [(a & b & -> & [F _] & A)|(_ & (a & b & -> & F & _))]; (split; [|auto]);
    apply in_or_app; right; left; auto.
Qed.

Lemma none_no_choice defs dir n d : none_of defs dir -> choice defs dir n d -> False.
Proof.
  intros N C. apply choice_in in C as [I D]. unfold none_of in N. rewrite Forall_forall in N.
  now apply (N d).
Qed.

Lemma Pick_choice defs dir n d : Pick defs n dir = inl d <-> choice defs dir n d.
Proof.
  pose proof (Pick_spec defs n dir) as H. destruct (Pick defs n dir) as [x|e].
  - split; [now intros [= <-]|]. intros C. f_equal. eapply choice_unique; eauto.
  - split; [discriminate|]. intros C. destruct H as [N _]. destruct (none_no_choice _ _ _ _ N C).
Qed.

Lemma Pick_none defs dir n e : Pick defs n dir = inr e <-> none_of defs dir /\ e = errNoReport.
Proof.
  pose proof (Pick_spec defs n dir) as H. destruct (Pick defs n dir) as [x|e'].
  - split; [discriminate|]. intros [N _]. destruct (none_no_choice _ _ _ _ N H).
  - destruct H as [N ->]. split; [intros [= <-]; auto|]. now intros [_ ->].
Qed.

Lemma Find_spec defs r :
  match Find defs (Z.of_N (b2n (rep_ID r))) with
  | inl d => known defs r d
  | inr e => unknown defs r /\ e = errReportID
  end.
Proof.
  unfold known, unknown. generalize (Z.of_N (b2n (rep_ID r))) as id. intros id.
  induction defs as [|x defs IH]; cbn [Find].
  - split; [constructor|reflexivity].
  - destruct (def_ID x =? id)%Z eqn:E.
    + exists [], defs. repeat split; auto. lia.
    + assert (def_ID x <> id) by lia. destruct (Find defs id) as [d|e].
      * destruct IH as (a & b & -> & D & A). exists (x :: a), b. repeat split; auto.
      * destruct IH. split; auto.
Qed.

Lemma known_unique defs r d d' : known defs r d -> known defs r d' -> d = d'.
Proof.
  intros (a & b & -> & D & A) (a' & b' & E & D' & A').
  revert a' A' E; induction a as [|x a IH]; intros [|x' a'] A' E; cbn in E; injection E as E1 E2; auto.
  - subst. inversion A'. contradiction.
  - subst. inversion A. contradiction.
  - inversion A; inversion A'; subst. eauto.
Qed.

Lemma unknown_known defs r d : unknown defs r -> known defs r d -> False.
Proof.
  intros U (a & b & -> & D & _). unfold unknown in U. rewrite Forall_app in U.
  destruct U as [_ U]. inversion U. contradiction.
Qed.

Lemma Find_known defs r d : Find defs (Z.of_N (b2n (rep_ID r))) = inl d <-> known defs r d.
Proof.
  pose proof (Find_spec defs r) as H. destruct (Find defs _) as [x|e].
  - split; [now intros [= <-]|]. intros C. f_equal. eapply known_unique; eauto.
  - split; [discriminate|]. intros C. destruct H as [N _]. destruct (unknown_known _ _ _ N C).
Qed.

Lemma Find_unknown defs r e :
  Find defs (Z.of_N (b2n (rep_ID r))) = inr e <-> unknown defs r /\ e = errReportID.
Proof.
  pose proof (Find_spec defs r) as H. destruct (Find defs _) as [x|e'].
  - split; [discriminate|]. intros [N _]. destruct (unknown_known _ _ _ N H).
  - destruct H as [N ->]. split; [intros [= <-]; auto|]. now intros [_ ->].
Qed.

(** In a usable table, the receiver finds the definition the sender used. *)
Lemma usable_known defs d lc data :
  NoDup (map def_ID defs) -> Forall (fun d => 0 <= def_ID d <= 255)%Z defs ->
  In d defs -> known defs (mkReport (id_byte d) lc data) d.
Proof.
  intros ND R I. apply in_split in I as (a & b & ->).
  assert (Z.of_N (b2n (id_byte d)) = def_ID d) as E.
  { rewrite Forall_forall in R. specialize (R d ltac:(apply in_or_app; right; left; auto)).
    unfold id_byte. rewrite b2n_n2b. lia. }
  exists a, b. cbn [rep_ID]. rewrite E. repeat split; auto.
  rewrite map_app in ND. cbn in ND. apply NoDup_remove_2 in ND.
  apply Forall_forall. intros x I Q. apply ND. apply in_or_app. left. rewrite <- Q.
  now apply in_map.
Qed.
