(** Tracer sessions, replay, the message queue, and two goroutines on one tracer. *)
From Coq Require Import ZifyBool ZifyNat ZifyN.
From Verif Require Import Base BaseFacts Trace SpecTrace TraceFacts TraceThms.
Ltac Zify.zify_post_hook ::= Z.div_mod_to_equations.

(** ** Tracer *)

Lemma WriteMsg_empty {W} (w : io_write W) s d i : fst (WriteMsg w s (mkMsg d i [])) = s.
Proof. unfold WriteMsg, Msg_MarshalText. cbn [msg_Dir msg_Data]. now destruct (Dir_MarshalText d). Qed.

Lemma fst_write_cons {W} (w : io_write W) s m ms :
  fst (write_msgs w s (m :: ms)) = fst (write_msgs w (fst (WriteMsg w s m)) ms).
Proof.
  cbn [write_msgs]. destruct (WriteMsg w s m) as [s' e]. cbn [fst].
  destruct (write_msgs w s' ms) as [s'' es]. reflexivity.
Qed.

Lemma tracer_transparent {S T} (tw : io_write T) (dev : io_rw S) : honest dev -> forall ops s t s' rs,
  run_dev dev s ops = (s', rs) ->
  run_tracer tw dev (s, t) ops = Ret ((s', fst (write_msgs tw t (recorded ops rs))), rs).
Proof.
  intros [HR HW]. induction ops as [|o ops IH]; intros s t s' rs H.
  - cbn in H. injection H as <- <-. reflexivity.
  - destruct o as [n|p]; cbn [run_dev run_tracer] in *.
    + unfold tracer_Read. destruct (rw_read dev s n) as [s1 [got e]] eqn:E.
      destruct (run_dev dev s1 ops) as [s2 rs2] eqn:E2. injection H as <- <-.
      destruct e as [e|].
      * cbn [bind]. rewrite (IH _ _ _ _ E2). cbn [bind recorded]. now destruct got.
      * pose proof (HR _ _ _ _ E) as L. destruct (Nat.ltb_spec n (List.length got)); [lia|].
        destruct got as [|b got].
        -- pose proof (WriteMsg_empty tw t DirIn 0) as WE.
           destruct (WriteMsg tw t (mkMsg DirIn 0 [])) as [t' e']. cbn [fst] in WE. subst t'.
           cbn [bind]. rewrite (IH _ _ _ _ E2). reflexivity.
        -- cbn [recorded]. rewrite fst_write_cons. change (mkMsg 0 0 (b :: got)) with (mkMsg DirIn 0 (b :: got)).
           destruct (WriteMsg tw t (mkMsg DirIn 0 (b :: got))) as [t' e']. cbn [fst bind].
           rewrite (IH _ _ _ _ E2). reflexivity.
    + unfold tracer_Write. destruct (rw_write dev s p) as [s1 [n e]] eqn:E.
      destruct (run_dev dev s1 ops) as [s2 rs2] eqn:E2. injection H as <- <-.
      destruct e as [e|].
      * cbn [bind]. rewrite (IH _ _ _ _ E2). cbn [bind recorded]. now destruct p, n.
      * pose proof (HW _ _ _ _ E) as L. destruct (Nat.ltb_spec (List.length p) n); [lia|].
        destruct n as [|n].
        -- cbn [firstn]. pose proof (WriteMsg_empty tw t DirOut 0) as WE.
           destruct (WriteMsg tw t (mkMsg DirOut 0 [])) as [t' e']. cbn [fst] in WE. subst t'.
           cbn [bind]. rewrite (IH _ _ _ _ E2). cbn [bind recorded]. now destruct p.
        -- destruct p as [|b p]; [cbn in L; lia|].
           cbn [recorded]. rewrite fst_write_cons.
           change (mkMsg 1 0 (firstn (Datatypes.S n) (b :: p))) with (mkMsg DirOut 0 (firstn (Datatypes.S n) (b :: p))).
           destruct (WriteMsg tw t (mkMsg DirOut 0 _)) as [t' e']. cbn [fst bind].
           rewrite (IH _ _ _ _ E2). reflexivity.
Qed.

(** What is recorded. *)
Lemma recorded_recordable ops : forall rs, Forall recordable (recorded ops rs).
Proof.
  induction ops as [|o ops IH]; intros rs; [destruct rs; constructor|].
  destruct rs as [|r rs]; [destruct o as [n|[|b p]]; constructor|].
  destruct o as [n|[|b p]]; destruct r as [[|b' got] [e|]|[|n'] [e|]]; cbn [recorded]; auto;
    constructor; auto; split; cbn; auto; discriminate.
Qed.

Lemma recorded_reads {S} (dev : io_rw S) ops : forall s s' rs, run_dev dev s ops = (s', rs) ->
  map msg_Data (filter (fun m => (msg_Dir m =? 0)%N) (recorded ops rs)) = read_data rs.
Proof.
  induction ops as [|o ops IH]; intros s s' rs H.
  - cbn in H. injection H as <- <-. reflexivity.
  - destruct o as [n|p]; cbn [run_dev] in H.
    + destruct (rw_read dev s n) as [s1 [got e]]. destruct (run_dev dev s1 ops) as [s2 rs2] eqn:E2.
      injection H as <- <-. specialize (IH _ _ _ E2). unfold read_data in *.
      destruct got as [|b got]; destruct e; cbn [recorded flat_map app filter map msg_Dir N.eqb msg_Data]; auto.
      now rewrite IH.
    + destruct (rw_write dev s p) as [s1 [n e]]. destruct (run_dev dev s1 ops) as [s2 rs2] eqn:E2.
      injection H as <- <-. specialize (IH _ _ _ E2). unfold read_data in *.
      destruct p as [|b p]; destruct n; destruct e; cbn [recorded flat_map app filter map msg_Dir N.eqb msg_Data]; auto.
Qed.

(** Sizes of what is recorded. *)
Lemma recorded_sizes {S} (dev : io_rw S) (B : N) ops : honest dev ->
  Forall (fun o => (N.of_nat (op_size o) <= B)%N) ops -> forall s s' rs, run_dev dev s ops = (s', rs) ->
  Forall (fun m => (len (msg_Data m) <= B)%N) (recorded ops rs).
Proof.
  intros [HR HW]. induction 1 as [|o ops SZ F IH]; intros s s' rs H.
  - cbn in H. injection H as <- <-. constructor.
  - destruct o as [n|p]; cbn [run_dev op_size] in *.
    + destruct (rw_read dev s n) as [s1 [got e]] eqn:E. destruct (run_dev dev s1 ops) as [s2 rs2] eqn:E2.
      injection H as <- <-. specialize (IH _ _ _ E2).
      destruct got as [|b got]; destruct e; cbn [recorded]; auto.
      constructor; auto. apply HR in E. unfold len. cbn [msg_Data]. lia.
    + destruct (rw_write dev s p) as [s1 [n e]]. destruct (run_dev dev s1 ops) as [s2 rs2] eqn:E2.
      injection H as <- <-. specialize (IH _ _ _ E2).
      destruct p as [|b p]; destruct n; destruct e; cbn [recorded]; auto.
      constructor; auto. unfold len. cbn [msg_Data]. rewrite firstn_length. lia.
Qed.

(** ** Replay *)

Lemma dir_loop_end fuel dir fin i n :
  dir_Read_loop (S fuel) dir (mkReader [] fin None i) n
  = Some (mkReader [] fin (Some fin) i, ([], Some fin)).
Proof. reflexivity. Qed.

Lemma dir_loop_line fuel dir m t texts fin i n : line_of m t ->
  dir_Read_loop (S fuel) dir (mkReader (t :: texts) fin None i) n
  = if (msg_Dir m =? dir)%N
    then Some (mkReader texts fin None ((i + 1) mod 2 ^ 64)%N, (firstn n (msg_Data m), None))
    else dir_Read_loop fuel dir (mkReader texts fin None ((i + 1) mod 2 ^ 64)%N) n.
Proof.
  intros L. cbn [dir_Read_loop]. unfold ReadMsg. cbn [rd_err rd_tokens rd_fin rd_ts ReadMsg_loop].
  pose proof (line_nonempty _ _ L) as NE. rewrite (line_unmarshal m t) by auto.
  destruct t; [congruence|]. cbn [msg_Dir msg_Data]. change uint_max1 with (2 ^ 64)%N.
  now destruct (msg_Dir m =? dir)%N.
Qed.

Lemma replay_failed k dir fin i n :
  replay k dir (mkReader [] fin (Some fin) i) n = Some (repeat ([], Some fin) k).
Proof. induction k as [|k IH]; [reflexivity|]. cbn [replay dir_Read dir_Read_loop ReadMsg rd_err rd_tokens List.length]. now rewrite IH. Qed.

Lemma replay_lines dir fin n k ms texts : Forall2 line_of ms texts -> forall i,
  replay (List.length (filter (fun m => (msg_Dir m =? dir)%N) ms) + k) dir (mkReader texts fin None i) n
  = Some (map (fun m => (firstn n (msg_Data m), None)) (filter (fun m => (msg_Dir m =? dir)%N) ms)
          ++ repeat ([], Some fin) k).
Proof.
  induction 1 as [|m t ms texts L F IH]; intros i.
  - destruct k as [|k]; [reflexivity|]. cbn [filter List.length Nat.add map app replay].
    unfold dir_Read. cbn [rd_tokens List.length]. rewrite dir_loop_end, replay_failed. reflexivity.
  - cbn [filter]. destruct (msg_Dir m =? dir)%N eqn:E.
    + cbn [List.length Nat.add map app replay]. unfold dir_Read. cbn [rd_tokens].
      rewrite (dir_loop_line _ _ m) by auto. rewrite E, IH. reflexivity.
    + specialize (IH ((i + 1) mod 2 ^ 64)%N).
      destruct (List.length (filter (fun m0 => (msg_Dir m0 =? dir)%N) ms) + k) as [|a] eqn:Q.
      * cbn [replay] in *. exact IH.
      * cbn [replay] in *. unfold dir_Read in *. cbn [rd_tokens List.length] in *.
        rewrite (dir_loop_line _ _ m) by auto. rewrite E. exact IH.
Qed.

Lemma firstn_all_map ms n : Forall (fun m => List.length (msg_Data m) <= n) ms ->
  map (fun m => (firstn n (msg_Data m), @None goerr)) ms = map (fun d => (d, None)) (map msg_Data ms).
Proof. induction 1 as [|m ms L F IH]; [reflexivity|]. cbn. now rewrite IH, firstn_all2. Qed.

Lemma Forall_filter {A} (P : A -> Prop) f l : Forall P l -> Forall P (filter f l).
Proof. induction 1; cbn; [constructor|]. destruct (f x); auto. Qed.

Lemma replay_session {S} (dev : io_rw S) s ops n k :
  honest dev -> Forall (fun o => (N.of_nat (op_size o) <= 21844)%N) ops ->
  Forall (fun o => op_size o <= n) (filter is_read ops) ->
  exists s' file rs,
    run_dev dev s ops = (s', rs)
    /\ run_tracer append_file dev (s, []) ops = Ret ((s', file), rs)
    /\ replay (List.length (read_data rs) + k) 0 (NewReader file EOF) n
       = Some (map (fun d => (d, None)) (read_data rs) ++ repeat ([], Some EOF) k).
Proof.
  intros H SZ RS. destruct (run_dev dev s ops) as [s' rs] eqn:E.
  pose proof (recorded_recordable ops rs) as R.
  pose proof (recorded_sizes dev 21844 ops H SZ _ _ _ E) as B.
  destruct (lines_exist _ R) as (texts & F).
  exists s', (file_of texts), rs. split; [reflexivity|]. split.
  { rewrite (tracer_transparent append_file dev H ops s [] s' rs E).
    rewrite (write_file _ texts F []). reflexivity. }
  rewrite <- (app_nil_r (file_of texts)).
  rewrite (new_reader _ texts [] EOF F B) by (first [now intros []|unfold short; cbn; lia]).
  rewrite app_nil_r.
  pose proof (replay_lines 0 EOF n k _ texts F 0) as RL.
  pose proof (recorded_reads dev ops s s' rs E) as RR.
  assert (List.length (read_data rs) = List.length (filter (fun m => (msg_Dir m =? 0)%N) (recorded ops rs))) as ->.
  { rewrite <- RR. apply map_length. }
  rewrite RL. rewrite firstn_all_map; [now rewrite RR|].
  (* sizes of the reads *)
  clear - H RS E. destruct H as [HR HW]. revert s s' rs E. induction ops as [|o ops IH]; intros s s' rs E.
  - cbn in E. injection E as <- <-. constructor.
  - destruct o as [a|p]; cbn [run_dev filter is_read] in *.
    + inversion RS as [|? ? SA RS']; subst. cbn [op_size] in SA.
      destruct (rw_read dev s a) as [s1 [got e]] eqn:ER. destruct (run_dev dev s1 ops) as [s2 rs2] eqn:E2.
      injection E as <- <-. specialize (IH RS' _ _ _ E2).
      destruct got as [|b got]; destruct e; cbn [recorded filter msg_Dir N.eqb]; auto.
      constructor; auto. apply HR in ER. cbn [msg_Data]. lia.
    + destruct (rw_write dev s p) as [s1 [q e]]. destruct (run_dev dev s1 ops) as [s2 rs2] eqn:E2.
      injection E as <- <-. specialize (IH RS _ _ _ E2).
      destruct p as [|b p]; destruct q; destruct e; cbn [recorded filter msg_Dir N.eqb]; auto.
Qed.

(** ** Queue *)

Definition dirf (d : N) : item -> bool := fun x => (msg_Dir (snd x) =? d)%N.

Record qinv (q : Queue) : Prop := mkInv {
  inv_in : q_in q = filter (dirf 0) (q_all q);
  inv_out : q_out q = filter (dirf 1) (q_all q);
  inv_nodup : NoDup (map fst (q_all q));
  inv_next : Forall (fun x => fst x < q_next q) (q_all q) }.

Lemma inv_new : qinv NewQueue.
Proof. constructor; try reflexivity; constructor. Qed.

Lemma enqueue_all q m : q_all (fst (Enqueue q m)) = q_all q ++ [(q_next q, m)].
Proof. unfold Enqueue. now destruct (msg_Dir m =? DirIn)%N, (msg_Dir m =? DirOut)%N. Qed.

Lemma inv_enqueue q m : qinv q -> qinv (fst (Enqueue q m)).
Proof.
  intros [I O N X].
  assert (NoDup (map fst (q_all q ++ [(q_next q, m)]))) as N'.
  { rewrite map_app. cbn [map fst].
    pose proof (Add_app (q_next q) (map fst (q_all q)) []) as A. rewrite app_nil_r in A.
    apply (NoDup_Add A). split; auto. intros Q. apply in_map_iff in Q as ((i & y) & E & Q). rewrite Forall_forall in X.
      apply X in Q. cbn in Q, E. lia. }
  assert (Forall (fun x => fst x < S (q_next q)) (q_all q ++ [(q_next q, m)])) as X'.
  { apply Forall_app. split; [|constructor; [cbn; lia|constructor]].
    eapply Forall_impl; [|exact X]. cbn. intros. lia. }
  unfold Enqueue, DirIn, DirOut.
  destruct (msg_Dir m =? 0)%N eqn:E0; [|destruct (msg_Dir m =? 1)%N eqn:E1]; constructor;
    cbn [fst q_all q_in q_out q_next]; auto; rewrite filter_app; cbn [filter]; unfold dirf at 2; cbn [snd].
  - now rewrite E0, I.
  - assert ((msg_Dir m =? 1)%N = false) as -> by lia. now rewrite app_nil_r.
  - now rewrite E0, app_nil_r.
  - now rewrite E1, O.
  - now rewrite E0, app_nil_r.
  - now rewrite E1, app_nil_r.
Qed.

Lemma remove_nodup i m a b :
  NoDup (map fst (a ++ (i, m) :: b)) -> remove_item i (a ++ (i, m) :: b) = a ++ b.
Proof.
  intros N. rewrite map_app in N. cbn in N. apply NoDup_remove_2 in N.
  assert (forall l, incl (map fst l) (map fst a ++ map fst b) -> remove_item i l = l) as K.
  { intros l INC. unfold remove_item. induction l as [|[j y] l IH]; [reflexivity|]. cbn.
    assert (j <> i) as NE. { intros ->. apply N. apply INC. left. reflexivity. }
    destruct (Nat.eqb_spec j i); [contradiction|]. cbn. rewrite IH; auto.
    intros x I. apply INC. right. exact I. }
  unfold remove_item in *. rewrite filter_app. cbn. rewrite Nat.eqb_refl. cbn.
  rewrite (K a) by (intros x I; apply in_or_app; auto).
  rewrite (K b) by (intros x I; apply in_or_app; auto). reflexivity.
Qed.

Lemma remove_filter i f l : remove_item i (filter f l) = filter f (remove_item i l).
Proof.
  unfold remove_item. induction l as [|x l IH]; [reflexivity|]. cbn.
  destruct (f x) eqn:E; destruct (Nat.eqb (fst x) i) eqn:E2; cbn; rewrite ?E2, ?E; cbn; rewrite ?IH; auto.
Qed.

Lemma remove_sub_nodup i l : NoDup (map fst l) -> NoDup (map fst (remove_item i l)).
Proof.
  unfold remove_item. induction l as [|x l IH]; cbn; [auto|]. intros N. inversion N as [|? ? NI N']; subst.
  destruct (Nat.eqb (fst x) i); cbn; auto. constructor; auto.
  intros Q. apply NI. apply in_map_iff in Q as (y & <- & Q). apply filter_In in Q as [Q _]. now apply in_map.
Qed.

Lemma remove_other f i m l :
  NoDup (map fst l) -> In (i, m) l -> f (i, m) = false -> remove_item i (filter f l) = filter f l.
Proof.
  intros N I Ff. apply in_split in I as (a & b & ->).
  rewrite remove_filter, remove_nodup by auto. rewrite !filter_app. cbn. now rewrite Ff.
Qed.

Lemma inv_unlink q qi : qinv q -> In qi (q_all q) -> qinv (fst (unlink q qi)).
Proof.
  intros [I O N X] IN. destruct qi as [i m].
  assert (NoDup (map fst (remove_item i (q_all q)))) as N' by now apply remove_sub_nodup.
  assert (Forall (fun x => fst x < q_next q) (remove_item i (q_all q))) as X' by now apply Forall_filter.
  unfold unlink, DirIn, DirOut. cbn [fst snd].
  destruct (msg_Dir m =? 0)%N eqn:E0; [|destruct (msg_Dir m =? 1)%N eqn:E1]; constructor;
    cbn [fst q_all q_in q_out q_next]; auto; rewrite <- remove_filter, <- ?I, <- ?O; try reflexivity.
  - symmetry. rewrite O. eapply remove_other; eauto. unfold dirf. cbn. lia.
  - symmetry. rewrite I. eapply remove_other; eauto.
  - symmetry. rewrite I. eapply remove_other; eauto.
  - symmetry. rewrite O. eapply remove_other; eauto.
Qed.

Lemma unlink_all q qi : q_all (fst (unlink q qi)) = remove_item (fst qi) (q_all q).
Proof. unfold unlink. now destruct (msg_Dir (snd qi) =? DirIn)%N, (msg_Dir (snd qi) =? DirOut)%N. Qed.

Lemma unlink_outcome q qi :
  snd (unlink q qi) = if ((msg_Dir (snd qi) =? 0) || (msg_Dir (snd qi) =? 1))%N%bool then Ret tt else Panic.
Proof.
  unfold unlink, DirIn, DirOut.
  now destruct (msg_Dir (snd qi) =? 0)%N, (msg_Dir (snd qi) =? 1)%N.
Qed.

(** The first item of a direction. *)
Lemma filter_first d l x r : filter (dirf d) l = x :: r ->
  exists a b, l = a ++ x :: b /\ take_dir d (map snd l) = Some (snd x, map snd (a ++ b)).
Proof.
  revert r. induction l as [|y l IH]; intros r H; [discriminate|]. cbn [filter] in H.
  destruct (dirf d y) eqn:E.
  - injection H as -> _. exists [], l. split; auto. cbn. unfold dirf in E. now rewrite E.
  - destruct (IH r H) as (a & b & -> & T). exists (y :: a), b. split; auto.
    cbn [map app take_dir]. unfold dirf in E. rewrite E, T. reflexivity.
Qed.

Lemma filter_none d l : filter (dirf d) l = [] -> take_dir d (map snd l) = None.
Proof.
  induction l as [|y l IH]; intros H; [reflexivity|]. cbn [filter] in H. cbn [map take_dir].
  unfold dirf in H at 1. destruct (msg_Dir (snd y) =? d)%N; [discriminate|]. now rewrite IH.
Qed.

Definition qlist (q : Queue) : list Msg := map snd (q_all q).

Lemma inv_op q o : qinv q -> qinv (fst (queue_op q o)).
Proof.
  intros Q. destruct o as [m| | |d]; cbn [queue_op].
  - pose proof (inv_enqueue q m Q). now destruct (Enqueue q m).
  - exact Q.
  - unfold Dequeue. destruct (q_all q) as [|qi l] eqn:E; [exact Q|].
    pose proof (inv_unlink q qi Q) as U. destruct (unlink q qi) as [q' o]. cbn [fst] in *. apply U.
    rewrite E. left. reflexivity.
  - unfold DequeueDir, DirIn, DirOut. destruct (d =? 0)%N eqn:D0; [|destruct (d =? 1)%N eqn:D1]; cbn [orb].
    + destruct (q_in q) as [|qi l] eqn:E; [exact Q|]. rewrite (inv_in q Q) in E.
      pose proof (inv_unlink q qi Q) as U. destruct (unlink q qi) as [q' o]. cbn [fst] in *. apply U.
      assert (In qi (filter (dirf 0) (q_all q))) as I by (rewrite E; left; auto). now apply filter_In in I.
    + destruct (q_out q) as [|qi l] eqn:E; [exact Q|]. rewrite (inv_out q Q) in E.
      pose proof (inv_unlink q qi Q) as U. destruct (unlink q qi) as [q' o]. cbn [fst] in *. apply U.
      assert (In qi (filter (dirf 1) (q_all q))) as I by (rewrite E; left; auto). now apply filter_In in I.
    + exact Q.
Qed.

Lemma dequeue_dir_op q d : qinv q -> valid_dir d ->
  snd (DequeueDir q d) = Ret (match take_dir d (qlist q) with Some (m, _) => Some m | None => None end)
  /\ qlist (fst (DequeueDir q d)) = match take_dir d (qlist q) with Some (_, l) => l | None => qlist q end.
Proof.
  intros Q V. unfold DequeueDir, DirIn, DirOut, qlist.
  assert (forall x r, filter (dirf d) (q_all q) = x :: r -> msg_Dir (snd x) = d) as DX.
  { intros x r H. assert (In x (filter (dirf d) (q_all q))) as I by (rewrite H; left; auto).
    apply filter_In in I as [_ I]. unfold dirf in I. lia. }
  assert ((if (d =? 0)%N then q_in q else q_out q) = filter (dirf d) (q_all q)) as ->.
  { destruct V as [->| ->]; cbn; [apply (inv_in q Q)|apply (inv_out q Q)]. }
  assert (((d =? 0) || (d =? 1))%N%bool = true) as -> by (destruct V as [->| ->]; reflexivity).
  destruct (filter (dirf d) (q_all q)) as [|qi l] eqn:E.
  - rewrite (filter_none d) by auto. auto.
  - destruct (filter_first d _ _ _ E) as (a & b & S & T). rewrite T.
    pose proof (unlink_all q qi) as UA. pose proof (unlink_outcome q qi) as UO.
    destruct (unlink q qi) as [q' o]. cbn [fst snd] in *. rewrite UA, UO.
    rewrite (DX qi l) by auto.
    assert (((d =? 0) || (d =? 1))%N%bool = true) as -> by (destruct V as [->| ->]; reflexivity).
    split; [reflexivity|]. destruct qi as [i m]. cbn [fst].
    pose proof (inv_nodup q Q) as N. rewrite S in N |- *. now rewrite remove_nodup.
Qed.

Lemma dequeue_op q : qinv q ->
  match q_all q with
  | [] => Dequeue q = (q, Ret None)
  | (i, m) :: l => q_all (fst (Dequeue q)) = l
                   /\ snd (Dequeue q) = if ((msg_Dir m =? 0) || (msg_Dir m =? 1))%N%bool
                                        then Ret (Some m) else Panic
  end.
Proof.
  intros Q. unfold Dequeue. destruct (q_all q) as [|[i m] l] eqn:E; [reflexivity|].
  pose proof (unlink_all q (i, m)) as UA. pose proof (unlink_outcome q (i, m)) as UO.
  destruct (unlink q (i, m)) as [q' o]. cbn [fst snd] in *. rewrite UA, UO, E. split.
  - apply (remove_nodup i m [] l). pose proof (inv_nodup q Q) as N. rewrite E in N. exact N.
  - now destruct ((msg_Dir m =? 0) || (msg_Dir m =? 1))%N%bool.
Qed.

Lemma op_simulates q o : qinv q -> Forall (fun m => valid_dir (msg_Dir m)) (qlist q) -> valid_qop o ->
  snd (queue_op q o) = Ret (snd (list_op (qlist q) o))
  /\ qlist (fst (queue_op q o)) = fst (list_op (qlist q) o)
  /\ Forall (fun m => valid_dir (msg_Dir m)) (fst (list_op (qlist q) o)).
Proof.
  intros Q V VO. destruct o as [m| | |d]; cbn [queue_op list_op valid_qop] in *.
  - pose proof (enqueue_all q m) as EA.
    assert (snd (Enqueue q m) = Ret tt) as ES.
    { unfold Enqueue, DirIn, DirOut. destruct VO as [->| ->]; reflexivity. }
    destruct (Enqueue q m) as [q' r]. cbn [fst snd] in *. rewrite ES. unfold qlist in *. rewrite EA, map_app.
    repeat split; auto. apply Forall_app. split; [exact V|]. apply Forall_cons; auto.
  - unfold Head, qlist in *. cbn [fst snd]. split; [|split; [reflexivity|exact V]].
    destruct (q_all q) as [|[i m] l]; reflexivity.
  - pose proof (dequeue_op q Q) as D. unfold qlist in *. destruct (q_all q) as [|[i m] l] eqn:E.
    + rewrite D. cbn [fst snd map]. rewrite E. repeat split; constructor.
    + destruct D as [DA DO]. cbn [map snd] in V |- *. pose proof (Forall_inv V) as Vm. pose proof (Forall_inv_tail V) as Vl.
      rewrite DO, DA. cbn [fst snd]. destruct Vm as [->| ->]; auto.
  - destruct (dequeue_dir_op q d Q VO) as [A B]. rewrite A, B.
    assert (forall l m l', take_dir d l = Some (m, l') -> Forall (fun m => valid_dir (msg_Dir m)) l ->
              Forall (fun m => valid_dir (msg_Dir m)) l') as T.
    { induction l as [|x l IH]; intros m l' T F; [discriminate|]. cbn in T. inversion F; subst.
      destruct (msg_Dir x =? d)%N; [injection T as <- <-; auto|].
      destruct (take_dir d l) as [[y r]|]; [|discriminate]. injection T as <- <-. constructor; eauto. }
    destruct (take_dir d (qlist q)) as [[m l]|] eqn:E; cbn [fst snd]; repeat split; eauto.
Qed.

Lemma queue_list os : forall q, qinv q -> Forall (fun m => valid_dir (msg_Dir m)) (qlist q) ->
  Forall valid_qop os -> queue_run q os = map Ret (list_run (qlist q) os).
Proof.
  induction os as [|o os IH]; intros q Q V VO; [reflexivity|]. inversion VO as [|? ? Vo VO']; subst.
  destruct (op_simulates q o Q V Vo) as (R & L & V'). pose proof (inv_op q o Q) as Q'.
  cbn [queue_run list_run]. destruct (queue_op q o) as [q' r]. cbn [fst snd] in *.
  destruct (list_op (qlist q) o) as [l' r']. cbn [fst snd map] in *. subst. rewrite IH; auto.
Qed.

Lemma known_dir_eq d : known_dir d = ((d =? 0) || (d =? 1))%N%bool.
Proof. unfold known_dir. lia. Qed.

Lemma op_any q o : qinv q ->
  snd (queue_op q o) = snd (any_op (qlist q) o) /\ qlist (fst (queue_op q o)) = fst (any_op (qlist q) o).
Proof.
  intros Q. destruct o as [m| | |d]; cbn [queue_op any_op].
  - pose proof (enqueue_all q m) as EA.
    assert (snd (Enqueue q m) = if known_dir (msg_Dir m) then Ret tt else Panic) as ES.
    { rewrite known_dir_eq. unfold Enqueue, DirIn, DirOut.
      now destruct (msg_Dir m =? 0)%N, (msg_Dir m =? 1)%N. }
    destruct (Enqueue q m) as [q' r]. cbn [fst snd] in *. rewrite ES. unfold qlist in *. rewrite EA, map_app.
    split; [|reflexivity]. now destruct (known_dir (msg_Dir m)).
  - unfold Head, qlist in *. cbn [fst snd]. split; [|reflexivity].
    destruct (q_all q) as [|[i m] l]; reflexivity.
  - pose proof (dequeue_op q Q) as D. unfold qlist in *. destruct (q_all q) as [|[i m] l] eqn:E.
    + rewrite D. cbn [fst snd map]. now rewrite E.
    + destruct D as [DA DO]. cbn [map snd fst]. rewrite DO, DA, known_dir_eq. auto.
  - destruct (known_dir d) eqn:K.
    + assert (valid_dir d) as V by (unfold known_dir in K; unfold valid_dir; lia).
      destruct (dequeue_dir_op q d Q V) as [A B]. rewrite A, B.
      now destruct (take_dir d (qlist q)) as [[m l]|].
    + unfold DequeueDir, DirIn, DirOut. rewrite known_dir_eq in K. rewrite K. auto.
Qed.

Lemma queue_any os : forall q, qinv q -> queue_run q os = any_run (qlist q) os.
Proof.
  induction os as [|o os IH]; intros q Q; [reflexivity|].
  destruct (op_any q o Q) as (R & L). pose proof (inv_op q o Q) as Q'.
  cbn [queue_run any_run]. destruct (queue_op q o) as [q' r]. cbn [fst snd] in *.
  destruct (any_op (qlist q) o) as [l' r']. cbn [fst snd] in *. subst. now rewrite IH.
Qed.

Lemma inv_after os : forall q, qinv q -> qinv (queue_after q os).
Proof. induction os as [|o os IH]; intros q Q; [exact Q|]. cbn. apply IH. now apply inv_op. Qed.

Lemma bad_enqueue os m q : ~ valid_dir (msg_Dir m) -> q = queue_after NewQueue os ->
  exists q', Enqueue q m = (q', Panic)
    /\ (Head q = None -> Head q' = Some m)
    /\ (forall x, Head q = Some x -> Head q' = Some x)
    /\ forall n, n = List.length (q_all q) ->
         let q1 := queue_after q' (repeat QDequeue n) in
         Head q1 = Some m /\ exists q2, Dequeue q1 = (q2, Panic) /\ Head q2 = None.
Proof.
  intros V ->. set (q := queue_after NewQueue os). assert (qinv q) as Q by apply inv_after, inv_new.
  pose proof (inv_op q (QEnqueue m) Q) as Q'. destruct (op_any q (QEnqueue m) Q) as [R L].
  cbn [queue_op any_op] in *. destruct (Enqueue q m) as [q' r] eqn:E. cbn [fst snd] in *.
  assert (known_dir (msg_Dir m) = false) as K by (unfold known_dir; unfold valid_dir in V; lia).
  exists q'. split. { rewrite K in R. destruct r; [discriminate|reflexivity]. }
  assert (forall q, Head q = hd_error (qlist q)) as HD.
  { intros q0. unfold Head, qlist. now destruct (q_all q0). }
  split; [|split].
  - rewrite !HD, L. destruct (qlist q); [reflexivity|discriminate].
  - intros x. rewrite !HD, L. destruct (qlist q); [discriminate|auto].
  - intros n ->. cbn zeta.
    assert (forall l q', qinv q' -> qlist q' = l ++ [m] ->
      qlist (queue_after q' (repeat QDequeue (List.length l))) = [m]) as D.
    { clear. induction l as [|x l IH]; intros q' Q' L; [exact L|]. cbn [List.length repeat queue_after].
      apply IH; [now apply inv_op|]. destruct (op_any q' QDequeue Q') as [_ A]. rewrite A, L. reflexivity. }
    specialize (D (qlist q) q' Q' L). unfold qlist in D at 2. rewrite map_length in D.
    set (q1 := queue_after q' _) in *. assert (qinv q1) as Q1 by now apply inv_after.
    split; [now rewrite HD, D|]. destruct (op_any q1 QDequeue Q1) as [A B]. rewrite D in A, B.
    cbn [queue_op any_op fst snd] in A, B. rewrite K in A. destruct (Dequeue q1) as [q2 r2].
    cbn [fst snd] in *. subst. exists q2. split; [reflexivity|]. now rewrite HD, B.
Qed.

Lemma take_dir_dir d l m l' : take_dir d l = Some (m, l') -> msg_Dir m = d.
Proof.
  revert l'. induction l as [|x l IH]; intros l' H; [discriminate|]. cbn in H.
  destruct (msg_Dir x =? d)%N eqn:E; [injection H as <- <-; lia|].
  destruct (take_dir d l) as [[y r]|]; [|discriminate]. injection H as <- <-. eauto.
Qed.

Lemma dequeue_dir_valid os d m q' :
  DequeueDir (queue_after NewQueue os) d = (q', Ret (Some m)) -> valid_dir (msg_Dir m) /\ msg_Dir m = d.
Proof.
  intros H. assert (qinv (queue_after NewQueue os)) as Q by apply inv_after, inv_new.
  destruct (op_any _ (QDequeueDir d) Q) as [A _]. cbn [queue_op] in A. rewrite H in A. cbn [snd any_op] in A.
  destruct (known_dir d) eqn:K; [|discriminate].
  destruct (take_dir d _) as [[x l]|] eqn:T; cbn [snd] in A; [|discriminate]. injection A as ->.
  apply take_dir_dir in T. unfold known_dir, valid_dir in *. lia.
Qed.

(** ** Old files *)

Lemma overwrite_exact old new : overwrite old new = new <-> List.length old <= List.length new.
Proof.
  unfold overwrite. split; intros H.
  - apply (f_equal (@List.length _)) in H. rewrite app_length, skipn_length in H. lia.
  - rewrite skipn_all2 by auto. apply app_nil_r.
Qed.

(** ** Two goroutines *)

Lemma WriteMsg_append file m t : line_of m t -> WriteMsg append_file file m = (file ++ t ++ [x0a], None).
Proof. intros L. rewrite (WriteMsg_line _ _ m t) by auto. reflexivity. Qed.

Definition pend (th : thread) : list Msg := match th_pending th with Some m => [m] | None => [] end.

Record tinv (ins outs : list Msg) (s : tstate) (ms : list Msg) : Prop := mkTinv {
  ti_file : exists texts, Forall2 line_of ms texts /\ t_file s = file_of texts;
  ti_in : ins = filter (fun m => (msg_Dir m =? 0)%N) ms ++ pend (t_in s) ++ th_todo (t_in s);
  ti_out : outs = filter (fun m => (msg_Dir m =? 1)%N) ms ++ pend (t_out s) ++ th_todo (t_out s) }.

Lemma tinv_step ins outs s s' ms :
  Forall (fun m => recordable m /\ msg_Dir m = 0%N) ins -> Forall (fun m => recordable m /\ msg_Dir m = 1%N) outs ->
  tinv ins outs s ms -> tstep s s' -> exists ms', tinv ins outs s' ms'.
Proof.
  intros FI FO [TF TI TO] ST. destruct ST as [a b dev file a' dev' file' ST|a b dev file b' dev' file' ST];
    cbn [t_file t_in t_out] in *; destruct ST as [m todo dev file|m todo dev file file' e W].
  - exists ms. constructor; cbn [t_file t_in t_out pend th_pending th_todo app] in *; auto.
  - unfold pend in TI. cbn [th_pending th_todo app] in TI.
    assert (recordable m /\ msg_Dir m = 0%N) as [R D].
    { rewrite Forall_forall in FI. apply FI. rewrite TI. apply in_or_app. right. left. reflexivity. }
    destruct (recordable_line m R) as (t & T). apply marshal_line in T.
    rewrite (WriteMsg_append file m t T) in W. injection W as <- <-.
    exists (ms ++ [m]). destruct TF as (texts & F & ->). constructor; cbn [t_file t_in t_out pend th_pending th_todo app].
    + exists (texts ++ [t]). split; [apply Forall2_app; auto|].
      unfold file_of. rewrite map_app, concat_app. cbn. now rewrite app_nil_r.
    + rewrite filter_app. cbn. rewrite D. cbn. rewrite <- app_assoc. exact TI.
    + rewrite filter_app. cbn. rewrite D. cbn. rewrite app_nil_r. exact TO.
  - exists ms. constructor; cbn [t_file t_in t_out pend th_pending th_todo app] in *; auto.
  - unfold pend in TO. cbn [th_pending th_todo app] in TO.
    assert (recordable m /\ msg_Dir m = 1%N) as [R D].
    { rewrite Forall_forall in FO. apply FO. rewrite TO. apply in_or_app. right. left. reflexivity. }
    destruct (recordable_line m R) as (t & T). apply marshal_line in T.
    rewrite (WriteMsg_append file m t T) in W. injection W as <- <-.
    exists (ms ++ [m]). destruct TF as (texts & F & ->). constructor; cbn [t_file t_in t_out pend th_pending th_todo app].
    + exists (texts ++ [t]). split; [apply Forall2_app; auto|].
      unfold file_of. rewrite map_app, concat_app. cbn. now rewrite app_nil_r.
    + rewrite filter_app. cbn. rewrite D. cbn. rewrite app_nil_r. exact TI.
    + rewrite filter_app. cbn. rewrite D. cbn. rewrite <- app_assoc. exact TO.
Qed.

Lemma tinv_steps ins outs s s' :
  Forall (fun m => recordable m /\ msg_Dir m = 0%N) ins -> Forall (fun m => recordable m /\ msg_Dir m = 1%N) outs ->
  tsteps s s' -> forall ms, tinv ins outs s ms -> exists ms', tinv ins outs s' ms'.
Proof.
  intros FI FO. induction 1 as [s|s s' s'' ST R IH]; intros ms I; [eauto|].
  destruct (tinv_step _ _ _ _ _ FI FO I ST) as (ms' & I'). eauto.
Qed.

Lemma tinv_start ins outs : tinv ins outs (mkT (mkThread None ins) (mkThread None outs) [] []) [].
Proof. constructor; try reflexivity. exists []. split; [constructor|reflexivity]. Qed.

Lemma split_length (ms : list Msg) :
  Forall (fun m => valid_dir (msg_Dir m)) ms ->
  List.length ms = List.length (filter (fun m => (msg_Dir m =? 0)%N) ms)
                   + List.length (filter (fun m => (msg_Dir m =? 1)%N) ms).
Proof. induction 1 as [|m ms V F IH]; [reflexivity|]. cbn. destruct V as [->| ->]; cbn; lia. Qed.

Lemma split_forall (P : Msg -> Prop) (ms : list Msg) :
  Forall (fun m => valid_dir (msg_Dir m)) ms ->
  Forall P (filter (fun m => (msg_Dir m =? 0)%N) ms) -> Forall P (filter (fun m => (msg_Dir m =? 1)%N) ms) ->
  Forall P ms.
Proof.
  induction 1 as [|m ms V F IH]; cbn; intros A B; [constructor|].
  destruct V as [V|V]; rewrite V in *; cbn in *.
  - inversion A; subst. constructor; auto.
  - inversion B; subst. constructor; auto.
Qed.

Lemma line_valid m t : line_of m t -> valid_dir (msg_Dir m).
Proof. intros (c & t' & [[-> _]|[-> _]] & _); [left|right]; reflexivity. Qed.

Lemma threads_complete ins outs s k :
  Forall (fun m => readable m /\ msg_Dir m = 0%N) ins ->
  Forall (fun m => readable m /\ msg_Dir m = 1%N) outs ->
  tsteps (mkT (mkThread None ins) (mkThread None outs) [] []) s -> t_in s = idle -> t_out s = idle ->
  exists ms,
    filter (fun m => (msg_Dir m =? 0)%N) ms = ins /\ filter (fun m => (msg_Dir m =? 1)%N) ms = outs
    /\ List.length ms = List.length ins + List.length outs
    /\ read_msgs (List.length ms + k) (NewReader (t_file s) EOF) = stamped 0 ms ++ repeat (failed EOF) k.
Proof.
  intros FI FO ST EI EO.
  assert (Forall (fun m => recordable m /\ msg_Dir m = 0%N) ins) as FI'.
  { eapply Forall_impl; [|exact FI]. intros m [[R _] D]. auto. }
  assert (Forall (fun m => recordable m /\ msg_Dir m = 1%N) outs) as FO'.
  { eapply Forall_impl; [|exact FO]. intros m [[R _] D]. auto. }
  destruct (tinv_steps ins outs _ _ FI' FO' ST [] (tinv_start ins outs)) as (ms & [(texts & F & T) I O]).
  rewrite EI in I. rewrite EO in O. cbn in I, O. rewrite app_nil_r in I, O.
  assert (Forall (fun m => valid_dir (msg_Dir m)) ms) as V.
  { clear - F. induction F; constructor; auto. eapply line_valid; eauto. }
  exists ms. split; [auto|]. split; [auto|]. split; [rewrite I, O; now apply split_length|].
  rewrite T. apply read_file; auto. apply split_forall; auto.
  - rewrite <- I. eapply Forall_impl; [|exact FI]. now intros m [[_ ?] _].
  - rewrite <- O. eapply Forall_impl; [|exact FO]. now intros m [[_ ?] _].
Qed.
