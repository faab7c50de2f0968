(** Lemmas about Lingo.v. *)
From Verif Require Import Base BaseFacts GoTypes GoTypesFacts Types Payload PayloadFacts Lingo SpecPayload Command SpecCommand.
From Coq Require Import ZifyBool ZifyNat ZifyN Permutation Sorted.
Ltac Zify.zify_post_hook ::= Z.div_mod_to_equations.

(** ** Ids *)

Lemma LingoID_eq id : LingoID id = (id / 65536 mod 256)%N.
Proof.
  unfold LingoID. change 255%N with (N.ones 8). rewrite N.land_ones, N.shiftr_div_pow2. reflexivity.
Qed.

Lemma CmdID_eq id : CmdID id = (id mod 65536)%N.
Proof. unfold CmdID. change 65535%N with (N.ones 16). now rewrite N.land_ones. Qed.

Lemma NewLingoCmdID_eq l c : (c < 65536)%N -> NewLingoCmdID l c = (l * 65536 + c)%N.
Proof.
  intros Hc. unfold NewLingoCmdID.
  assert (D : N.land (N.shiftl l 16) c = 0%N).
  { apply N.bits_inj. intros k. rewrite N.land_spec, N.bits_0.
    destruct (N.lt_ge_cases k 16) as [H|H].
    - now rewrite N.shiftl_spec_low.
    - replace c with (c mod 2 ^ 16)%N by (apply N.mod_small; exact Hc).
      rewrite N.mod_pow2_bits_high by exact H. apply andb_false_r. }
  rewrite <- N.lxor_lor by exact D. rewrite <- N.add_nocarry_lxor by exact D.
  rewrite N.shiftl_mul_pow2. reflexivity.
Qed.

Lemma LingoID_New l c : (l < 256)%N -> (c < 65536)%N -> LingoID (NewLingoCmdID l c) = l.
Proof. intros. rewrite NewLingoCmdID_eq, LingoID_eq by auto. lia. Qed.

Lemma CmdID_New l c : (c < 65536)%N -> CmdID (NewLingoCmdID l c) = c.
Proof. intros. rewrite NewLingoCmdID_eq, CmdID_eq by auto. lia. Qed.

Lemma New_parts id : (id < 2 ^ 24)%N -> NewLingoCmdID (LingoID id) (CmdID id) = id.
Proof.
  intros. rewrite NewLingoCmdID_eq; rewrite CmdID_eq, ?LingoID_eq; lia.
Qed.

(** ** Wire form *)

Lemma cmdIDLen_4 : cmdIDLen 4 = 2.
Proof. reflexivity. Qed.

Lemma cmdIDLen_other l : l <> 4%N -> cmdIDLen l = 1.
Proof. unfold cmdIDLen, LingoExtRemoteID. intros H. now destruct (N.eqb_spec l 4). Qed.

Lemma be_enc_1 n : be_enc 1 n = [n2b n].
Proof. reflexivity. Qed.

Lemma n2b_eq a b : (a mod 256 = b mod 256)%N -> n2b a = n2b b.
Proof. intros H. rewrite <- (n2b_mod a), <- (n2b_mod b). now rewrite H. Qed.

Lemma marshal_id_prefix id : (id < 2 ^ 24)%N -> marshalLingoCmdID id = id_prefix id.
Proof.
  intros H. unfold marshalLingoCmdID, id_prefix.
  rewrite LingoID_eq, CmdID_eq. replace (id / 65536 mod 256)%N with (id / 65536)%N by lia.
  destruct (N.eqb_spec (id / 65536) 4) as [E|E].
  - rewrite E, cmdIDLen_4, be_enc_1, be_enc_2. cbn [app].
    change (n2b 4) with x04. do 2 f_equal. f_equal. apply n2b_eq. lia.
  - rewrite cmdIDLen_other by exact E. rewrite !be_enc_1. cbn [app]. do 2 f_equal.
    apply n2b_eq. lia.
Qed.

Lemma unmarshal_id_spec pkt :
  match packet_id pkt with
  | Some id => unmarshalLingoCmdID pkt = (Ok id, packet_body pkt) /\ (id < 2 ^ 24)%N
  | None => exists e r, unmarshalLingoCmdID pkt = (Err e, r) /\ (e = EOF \/ e = UnexpectedEOF)
  end.
Proof.
  unfold packet_id, unmarshalLingoCmdID, packet_body.
  destruct pkt as [|l r]; [do 2 eexists; split; [reflexivity|auto]|].
  rewrite read_full_ok by (simpl; lia). cbn [firstn skipn].
  change (be_dec [l]) with (b2n l). pose proof (b2n_lt l).
  destruct r as [|c r].
  - exists EOF, []. destruct (N.eq_dec (b2n l) 4) as [E|E].
    + rewrite E, cmdIDLen_4. auto.
    + rewrite cmdIDLen_other by exact E. auto.
  - pose proof (b2n_lt c). destruct (N.eqb_spec (b2n l) 4) as [E|E].
    + rewrite E, cmdIDLen_4. destruct r as [|d r].
      * exists UnexpectedEOF, []. auto.
      * pose proof (b2n_lt d). rewrite read_full_ok by (simpl; lia). cbn [firstn skipn].
        rewrite be_dec_2. rewrite NewLingoCmdID_eq by lia. split; [|lia]. do 2 f_equal. lia.
    + rewrite cmdIDLen_other by exact E. rewrite read_full_ok by (simpl; lia). cbn [firstn skipn].
      change (be_dec [c]) with (b2n c). rewrite NewLingoCmdID_eq by lia. split; [reflexivity|lia].
Qed.

Lemma packet_id_prefix id rest :
  wire_id id -> packet_id (id_prefix id ++ rest) = Some id /\ packet_body (id_prefix id ++ rest) = rest.
Proof.
  intros [H1 H2]. unfold id_prefix, packet_id, packet_body.
  destruct (N.eqb_spec (id / 65536) 4) as [E|E]; cbn [app].
  - change (b2n x04 =? 4)%N with true. cbn [skipn]. split; [|reflexivity]. f_equal.
    rewrite !b2n_n2b. lia.
  - rewrite !b2n_n2b. replace (id / 65536 mod 256)%N with (id / 65536)%N by lia.
    destruct (N.eqb_spec (id / 65536) 4) as [E2|_]; [congruence|]. cbn [skipn].
    split; [|reflexivity]. f_equal. lia.
Qed.

Lemma id_roundtrip id rest :
  wire_id id -> unmarshalLingoCmdID (marshalLingoCmdID id ++ rest) = (Ok id, rest).
Proof.
  intros H. rewrite marshal_id_prefix by apply H.
  pose proof (unmarshal_id_spec (id_prefix id ++ rest)) as U.
  destruct (packet_id_prefix id rest H) as [E1 E2]. rewrite E1, E2 in U. apply U.
Qed.

(** ** Registry *)

Lemma types_of_app a b id : types_of (a ++ b) id = types_of a id ++ types_of b id.
Proof. unfold types_of. now rewrite filter_app, map_app. Qed.

Lemma types_of_in reg id t : In t (types_of reg id) <-> In (id, t) reg.
Proof.
  unfold types_of. rewrite in_map_iff. split.
  - intros ([i u] & <- & H). apply filter_In in H as [H E]. apply N.eqb_eq in E. simpl in *. now subst.
  - intros H. exists (id, t). split; auto. apply filter_In. split; auto. apply N.eqb_refl.
Qed.

Lemma id_of_last a id t b :
  (forall i, ~ In (i, t) b) -> id_of (a ++ (id, t) :: b) t = Some id.
Proof.
  intros H. unfold id_of. rewrite rev_app_distr. cbn [rev]. rewrite <- !app_assoc, filter_app.
  assert (E : filter (fun e => pty_eqb (snd e) t) (rev b) = []).
  { destruct (filter _ (rev b)) as [|[i u] l] eqn:F; auto.
    assert (Hin : In (i, u) (filter (fun e => pty_eqb (snd e) t) (rev b))) by (rewrite F; now left).
    apply filter_In in Hin as [Hin Heq]. apply pty_eqb_eq in Heq. simpl in Heq. subst u.
    apply in_rev in Hin. now apply H in Hin. }
  rewrite E. cbn [app filter]. cbn [snd]. now rewrite pty_eqb_refl.
Qed.

Lemma id_of_none reg t : id_of reg t = None <-> (forall i, ~ In (i, t) reg).
Proof.
  unfold id_of. destruct (filter _ (rev reg)) as [|[i u] l] eqn:F.
  - split; auto. intros _ i Hin. apply in_rev in Hin.
    assert (In (i, t) []) as [].
    rewrite <- F. apply filter_In. split; auto. apply pty_eqb_refl.
  - split; [discriminate|]. intros H. exfalso.
    assert (Hin : In (i, u) (filter (fun e => pty_eqb (snd e) t) (rev reg))) by (rewrite F; now left).
    apply filter_In in Hin as [Hin Heq]. apply pty_eqb_eq in Heq. simpl in Heq. subst u.
    apply in_rev in Hin. now apply H in Hin.
Qed.

Lemma id_of_in reg id t : id_of reg t = Some id -> In (id, t) reg.
Proof.
  unfold id_of. destruct (filter _ (rev reg)) as [|[i u] l] eqn:F; [discriminate|].
  intros [= ->].
  assert (Hin : In (id, u) (filter (fun e => pty_eqb (snd e) t) (rev reg))) by (rewrite F; now left).
  apply filter_In in Hin as [Hin Heq]. apply pty_eqb_eq in Heq. simpl in Heq. subst u.
  now apply in_rev.
Qed.

(** Entries a table contributes: its fields up to the first bad tag. *)
Fixpoint good_entries (lingo : N) (fields : list (string * pty)) : list (N * pty) :=
  match fields with
  | [] => []
  | (tag, t) :: fs =>
      match parse_uint16 tag with
      | Some c => (NewLingoCmdID lingo c, t) :: good_entries lingo fs
      | None => []
      end
  end.

Lemma RegisterLingos_entries reg lingo fields :
  fst (RegisterLingos reg lingo fields) = reg ++ good_entries lingo fields.
Proof.
  revert reg; induction fields as [|[tag t] fs IH]; intros reg; cbn [RegisterLingos good_entries].
  - now rewrite app_nil_r.
  - destruct (parse_uint16 tag) as [c|]; [|now rewrite app_nil_r].
    rewrite IH. unfold storeMapping. now rewrite <- app_assoc.
Qed.

Lemma RegisterLingos_err reg lingo fields :
  snd (RegisterLingos reg lingo fields) = None
  <-> (forall tag t, In (tag, t) fields -> parse_uint16 tag <> None).
Proof.
  revert reg; induction fields as [|[tag t] fs IH]; intros reg; cbn [RegisterLingos].
  - split; [intros _ tag t [] | reflexivity].
  - destruct (parse_uint16 tag) as [c|] eqn:E.
    + rewrite IH. split.
      * intros H tag' t' [[= <- <-]|Hin]; [congruence | eauto].
      * intros H tag' t' Hin. eapply H. right. eauto.
    + split; [discriminate|]. intros H. exfalso. apply (H tag t); [now left | exact E].
Qed.

(** ** The shipped registry *)

Definition opt_lookup_eqb (o : option LookupResult) (t : pty) (b : bool) : bool :=
  match o with
  | Some r => pty_eqb (lr_type r) t && Bool.eqb (lr_trx r) b
  | None => false
  end.

Lemma opt_lookup_eqb_eq o t b : opt_lookup_eqb o t b = true -> o = Some (mkLookup t b).
Proof.
  destruct o as [[t' b']|]; simpl; [|discriminate]. intros H. apply andb_prop in H as [H1 H2].
  apply pty_eqb_eq in H1. apply Bool.eqb_prop in H2. now subst.
Qed.

(** Everything that is checked of each entry, by computation over the 195 entries. *)
Definition entry_ok (e : N * pty) : bool :=
  let '(id, t) := e in
  let ts := types_of std_registry id in
  ((id <? 2 ^ 24) && ((id / 65536 =? 4) || (id mod 65536 <? 256)))%N
  && option_eqb N.eqb (id_of std_registry t) (Some id)
  && match struct_size (layout t) with
     | Some n =>
         opt_lookup_eqb (lookup_by_size ts (n + 2)) t true
         && (pty_eqb t general_ACKDataDropped || opt_lookup_eqb (lookup_by_size ts n) t false)
     | None => Nat.eqb (List.length ts) 1
     end.

Lemma std_entries_ok : forallb entry_ok std_registry = true.
Proof. vm_compute. reflexivity. Qed.

Lemma std_entry id t : In (id, t) std_registry -> entry_ok (id, t) = true.
Proof. intros H. pose proof std_entries_ok as A. rewrite forallb_forall in A. now apply A. Qed.

Lemma std_wire_id id t : In (id, t) std_registry -> wire_id id.
Proof.
  intros H. apply std_entry in H. unfold entry_ok in H. apply andb_prop in H as [H _].
  apply andb_prop in H as [H _]. unfold wire_id. lia.
Qed.

Lemma option_eqb_N a b : option_eqb N.eqb a (Some b) = true -> a = Some b.
Proof. destruct a; simpl; [|discriminate]. rewrite N.eqb_eq. congruence. Qed.

Lemma std_id_of id t : In (id, t) std_registry -> id_of std_registry t = Some id.
Proof.
  intros H. apply std_entry in H. unfold entry_ok in H. apply andb_prop in H as [H _].
  apply andb_prop in H as [_ H]. now apply option_eqb_N.
Qed.

Lemma std_lookup_trx id t n :
  In (id, t) std_registry -> fixed_size t n ->
  lookup_by_size (types_of std_registry id) (n + 2) = Some (mkLookup t true).
Proof.
  intros H Hn. apply std_entry in H. unfold entry_ok in H. apply andb_prop in H as [_ H].
  unfold fixed_size in Hn. rewrite Hn in H. apply andb_prop in H as [H _]. now apply opt_lookup_eqb_eq.
Qed.

Lemma std_lookup_plain id t n :
  In (id, t) std_registry -> fixed_size t n -> t <> general_ACKDataDropped ->
  lookup_by_size (types_of std_registry id) n = Some (mkLookup t false).
Proof.
  intros H Hn Ht. apply std_entry in H. unfold entry_ok in H. apply andb_prop in H as [_ H].
  unfold fixed_size in Hn. rewrite Hn in H. apply andb_prop in H as [_ H].
  apply orb_prop in H as [H|H]; [apply pty_eqb_eq in H; congruence|]. now apply opt_lookup_eqb_eq.
Qed.

Lemma std_single id t :
  In (id, t) std_registry -> struct_size (layout t) = None -> types_of std_registry id = [t].
Proof.
  intros H Hn. pose proof (std_entry _ _ H) as E. unfold entry_ok in E. apply andb_prop in E as [_ E].
  rewrite Hn in E. apply types_of_in in H.
  destruct (types_of std_registry id) as [|u [|? ?]]; simpl in *; try discriminate.
  destruct H as [->|[]]. reflexivity.
Qed.

Lemma std_nodup_types : NoDup (map snd std_registry).
Proof.
  assert (H : NoDup (map (fun e => pty_index (snd e)) std_registry)).
  { assert (E : nodup Nat.eq_dec (map (fun e => pty_index (snd e)) std_registry)
               = map (fun e => pty_index (snd e)) std_registry) by (vm_compute; reflexivity).
    rewrite <- E. apply NoDup_nodup. }
  rewrite <- map_map in H. now apply NoDup_map_inv in H.
Qed.

(** ** Sorting *)

Lemma insert_perm c l : Permutation (c :: l) (insert_by_id c l).
Proof.
  induction l as [|d l IH]; cbn [insert_by_id]; auto.
  destruct (fst d <? fst c)%N; auto.
  eapply perm_trans; [apply perm_swap|]. now constructor.
Qed.

Lemma sort_perm l : Permutation l (sort_by_id l).
Proof.
  induction l as [|c l IH]; cbn [sort_by_id]; auto.
  eapply perm_trans; [|apply insert_perm]. now constructor.
Qed.

Definition id_lt (a b : N * string) : Prop := (fst a < fst b)%N.

Lemma insert_sorted c l :
  StronglySorted id_lt l -> (forall d, In d l -> fst d <> fst c) -> StronglySorted id_lt (insert_by_id c l).
Proof.
  induction l as [|d l IH]; intros Hs Hd; cbn [insert_by_id].
  - repeat constructor.
  - inversion Hs as [|? ? Hs' Hall]; subst.
    destruct (N.ltb_spec (fst d) (fst c)).
    + constructor; [apply IH; auto; intros; apply Hd; now right|].
      rewrite Forall_forall in *. intros x Hx.
      apply (Permutation_in x (Permutation_sym (insert_perm c l))) in Hx as [<-|Hx]; auto.
    + assert (fst d <> fst c) by (apply Hd; now left).
      constructor; [exact Hs|]. constructor; [unfold id_lt; lia|].
      rewrite Forall_forall in *. intros x Hx. specialize (Hall _ Hx). unfold id_lt in *. lia.
Qed.

Lemma sort_sorted l : NoDup (map fst l) -> StronglySorted id_lt (sort_by_id l).
Proof.
  induction l as [|c l IH]; intros H; cbn [sort_by_id]; [constructor|].
  inversion H as [|? ? Hn Hd]; subst. apply insert_sorted; auto.
  intros d Hin E. apply Hn. rewrite <- E. apply in_map.
  eapply Permutation_in; [apply Permutation_sym, sort_perm | exact Hin].
Qed.

Lemma sorted_unique (l1 l2 : list N) :
  StronglySorted N.lt l1 -> StronglySorted N.lt l2 -> (forall x, In x l1 <-> In x l2) -> l1 = l2.
Proof.
  revert l2; induction l1 as [|a l1 IH]; intros [|b l2] H1 H2 E; auto.
  - exfalso. apply (E b). now left.
  - exfalso. apply (E a). now left.
  - inversion H1 as [|? ? S1 A1]; subst. inversion H2 as [|? ? S2 A2]; subst.
    rewrite Forall_forall in *.
    assert (a = b).
    { destruct (proj1 (E a) (or_introl eq_refl)) as [->|Ha]; auto.
      destruct (proj2 (E b) (or_introl eq_refl)) as [->|Hb]; auto.
      specialize (A1 _ Hb). specialize (A2 _ Ha). lia. }
    subst b. f_equal. apply IH; auto. intros x. split; intros Hx.
    + destruct (proj1 (E x) (or_intror Hx)) as [->|]; auto. specialize (A1 _ Hx). lia.
    + destruct (proj2 (E x) (or_intror Hx)) as [->|]; auto. specialize (A2 _ Hx). lia.
Qed.

Definition entry_name (reg : registry) (id : N) : string :=
  match types_of reg id with t :: _ => type_name t | [] => EmptyString end.

Definition dump_text (reg : registry) (ids : list N) : string :=
  fold_right (fun id s => append (dump_line (id, entry_name reg id)) s) EmptyString ids.

Lemma dump_lingos_sorted order reg :
  NoDup order ->
  exists ids, Permutation order ids /\ StronglySorted N.lt ids /\ DumpLingos order reg = dump_text reg ids.
Proof.
  intros Hd. unfold DumpLingos. fold (entry_name reg).
  set (cmds := map (fun id => (id, entry_name reg id)) order).
  change (map (fun id : N => (id, match types_of reg id with
                                 | [] => EmptyString
                                 | t :: _ => type_name t
                                 end)) order) with cmds.
  assert (Hf : map fst cmds = order).
  { unfold cmds. rewrite map_map. cbn [fst]. apply map_id. }
  exists (map fst (sort_by_id cmds)). split; [|split].
  - rewrite <- Hf at 1. apply Permutation_map, sort_perm.
  - assert (S : StronglySorted id_lt (sort_by_id cmds)) by (apply sort_sorted; now rewrite Hf).
    clear -S. induction S as [|c l _ IH H]; cbn [map]; constructor; auto.
    rewrite Forall_map. exact H.
  - assert (A : Forall (fun c => snd c = entry_name reg (fst c)) (sort_by_id cmds)).
    { rewrite Forall_forall. intros c Hc.
      apply (Permutation_in c (Permutation_sym (sort_perm cmds))) in Hc.
      unfold cmds in Hc. apply in_map_iff in Hc as (id & <- & _). reflexivity. }
    unfold dump_text. induction A as [|[id nm] l E _ IH]; [reflexivity|].
    cbn [map fold_right fst snd] in *. rewrite <- E, IH. reflexivity.
Qed.
