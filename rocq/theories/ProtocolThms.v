(** The program against the machine of SpecProtocol: packets. *)
From Coq Require Import ZifyBool ZifyNat ZifyN.
From Verif Require Import Base BaseFacts GoTypes GoTypesFacts Types Payload PayloadFacts Util Lingo Command
  SpecPayload SpecCommand LingoFacts CommandFacts CommandThms Handlers SpecHandlers HandlersFacts HandlersThms
  SpecProtocol ProtocolFacts ProtocolTokens.
Ltac Zify.zify_post_hook ::= Z.div_mod_to_equations.
#[local] Opaque std_registry.

(** ** All rows *)

Lemma pick (P : nat -> Prop) l n : Forall P l -> existsb (Nat.eqb n) l = true -> P n.
Proof.
  intros F E. apply existsb_exists in E as (m & I & E). apply Nat.eqb_eq in E. subst m.
  rewrite Forall_forall in F. auto.
Qed.

Ltac the_row rt clock :=
  lazymatch goal with
  | |- ro _ _ 0 => exact (row_0 rt clock)
  | |- ro _ _ 1 => exact (row_1 rt clock)
  | |- ro _ _ 2 => exact (row_2 rt clock)
  | |- ro _ _ 4 => exact (row_4 rt clock)
  | |- ro _ _ 7 => exact (row_7 rt clock)
  | |- ro _ _ 9 => exact (row_9 rt clock)
  | |- ro _ _ 10 => exact (row_10 rt clock)
  | |- ro _ _ 15 => exact (row_15 rt clock)
  | |- ro _ _ 17 => exact (row_17 rt clock)
  | |- ro _ _ 20 => exact (row_20 rt clock)
  | |- ro _ _ 21 => exact (row_21 rt clock)
  | |- ro _ _ 23 => exact (row_23 rt clock)
  | |- ro _ _ 27 => exact (row_27 rt clock)
  | |- ro _ _ 35 => exact (row_35 rt clock)
  | |- ro _ _ 39 => exact (row_39 rt clock)
  | |- ro _ _ 52 => exact (row_52 rt clock)
  | |- _ => first [ apply (pick (ro rt clock) _ _ (rows_plain_0 rt clock)); reflexivity | apply (pick (ro rt clock) _ _ (rows_plain_3 rt clock)); reflexivity
                  | apply (pick (ro rt clock) _ _ (rows_plain_4 rt clock)); reflexivity ]
  end.

Lemma rows_good rt clock : Forall2 (good rt clock) request_types (requests rt clock).
Proof.
  assert (R : forall n, n < 79 -> ro rt clock n).
  { intros n L. do 79 (destruct n as [|n]; [the_row rt clock|]). lia. }
  assert (L : List.length request_types = 79) by reflexivity.
  assert (L2 : List.length (requests rt clock) = 79) by reflexivity.
  revert R L L2. unfold ro. generalize request_types (requests rt clock). generalize 79.
  intros n. induction n as [|n IH]; intros ts rs R L L2; destruct ts as [|t ts], rs as [|r rs]; try discriminate; [constructor|].
  apply Forall2_cons; [exact (R 0 ltac:(lia))|]. apply IH; [|now injection L|now injection L2].
  intros k K. exact (R (S k) ltac:(lia)).
Qed.

(** ** Payloads that are no requests *)

Definition is_request (t : pty) : bool := existsb (pty_eqb t) request_types.

Lemma handle_quiet {S} clock (dev : DeviceGeneral S) id tr t p h (Q : hstate S -> unit -> list event -> Prop) :
  payload_type p = Some t -> is_request t = false ->
  Q h tt [] -> post (handlePacket std_registry clock dev (mkCmd id tr (Some p))) h Q.
Proof.
  intros T R H.
  assert (G : HandleGeneral std_registry dev (mkCmd id tr (Some p)) = ret tt).
  { destruct p as [u vs|l|l|ty i|l|ty i|ty i|l|l]; try reflexivity.
    - injection T as ->. destruct t; vm_compute in R; try discriminate R; reflexivity.
    - injection T as <-. vm_compute in R. discriminate R.
    - discriminate T. }
  assert (D : HandleDispRemote (S := S) std_registry clock (mkCmd id tr (Some p)) = ret None).
  { destruct p as [u vs|l|l|ty i|l|ty i|ty i|l|l]; try reflexivity.
    injection T as ->. destruct t; vm_compute in R; try discriminate R; reflexivity. }
  assert (E : HandleExtRemote (S := S) std_registry (mkCmd id tr (Some p)) = ret tt).
  { destruct p as [u vs|l|l|ty i|l|ty i|ty i|l|l]; try reflexivity.
    injection T as ->. destruct t; vm_compute in R; try discriminate R; reflexivity. }
  assert (A : HandleAudio (S := S) std_registry (mkCmd id tr (Some p)) = ret tt).
  { destruct p as [u vs|l|l|ty i|l|ty i|ty i|l|l]; try reflexivity.
    injection T as ->. destruct t; vm_compute in R; try discriminate R; reflexivity. }
  assert (F : match p with
             | Pst general_RetDevAuthenticationInfo auth =>
                 if ((2 <=? fu auth 0) && (fu auth 3 <=? fu auth 2) || (fu auth 0 <? 2))%N%bool
                 then audio_Start (S := S) std_registry else ret tt
             | _ => ret tt
             end = ret tt).
  { destruct p as [u vs|l|l|ty i|l|ty i|ty i|l|l]; try reflexivity.
    injection T as ->. destruct t; vm_compute in R; try discriminate R; reflexivity. }
  unfold handlePacket. cbn [cmd_id cmd_payload]. cbv zeta. rewrite G, D, E, A.
  destruct (LingoID id =? LingoGeneralID)%N.
  { apply post_seq. match goal with |- post ?m _ _ => replace m with (@ret S unit tt) by (symmetry; exact F) end.
    apply post_ret. now apply post_ret. }
  destruct (LingoID id =? LingoDisplayRemoteID)%N; [apply post_seq, post_ret; now apply post_ret|].
  destruct (LingoID id =? LingoExtRemoteID)%N; [now apply post_ret|].
  destruct (LingoID id =? LingoDigitalAudioID)%N; now apply post_ret.
Qed.

Lemma quiet_unmarshal rt t c :
  is_request t = false -> exists w r, payload_unmarshal rt t c = Ret (w, r).
Proof.
  intros R. destruct (payload_unmarshal rt t c) as [[w r]|] eqn:E; [eauto|].
  apply payload_unmarshal_panic in E. destruct E as [[-> _]|[-> _]]; vm_compute in R; discriminate R.
Qed.

(** ** Types and rows of an identifier *)

Definition requests_of (id : N) : list pty := filter (fun t => (the_id t =? id)%N) request_types.

Fixpoint same_types (a b : list pty) : bool :=
  match a, b with
  | [], [] => true
  | x :: a', y :: b' => pty_eqb x y && same_types a' b'
  | _, _ => false
  end.

Lemma same_types_eq a b : same_types a b = true -> a = b.
Proof.
  revert b. induction a as [|x a IH]; intros [|y b] E; try discriminate E; [reflexivity|].
  cbn [same_types] in E. apply andb_prop in E as [E1 E2]. apply pty_eqb_eq in E1. subst y. f_equal. auto.
Qed.

(** The types registered for an identifier are all requests, or none is. *)
Definition sorted_lists (lingo : N) (rs ts : list pty) : bool :=
  match rs with
  | [] => forallb (fun t => negb (is_request t)) ts
  | rs => same_types rs ts && (Nat.eqb (List.length ts) 1 || (lingo =? 4)%N)
  end.

Definition sorted_out (l : list (N * pty)) (id : N) : bool :=
  sorted_lists (LingoID id) (map snd (filter (fun p => (fst p =? id)%N) l)) (types_of std_registry id).

Definition request_pairs : list (N * pty) := map (fun t => (the_id t, t)) request_types.

Lemma sorted_registry : (fun l => forallb (fun e => sorted_out l (fst e)) std_registry) request_pairs = true.
Proof. vm_cast_no_check (eq_refl true). Qed.

Lemma requests_pairs id : map snd (filter (fun p => (fst p =? id)%N) request_pairs) = requests_of id.
Proof.
  unfold requests_of, request_pairs. induction request_types as [|t l IH]; [reflexivity|].
  cbn [map filter fst]. destruct (the_id t =? id)%N; cbn [map snd]; now rewrite IH.
Qed.

Lemma request_registered t : In t request_types -> In (the_id t, t) std_registry.
Proof.
  intros I. apply registered_in.
  assert (F : forallb registered request_types = true) by (vm_compute; reflexivity).
  rewrite forallb_forall in F. exact (F t I).
Qed.

Lemma in_ids (reg : registry) id : In id (map fst reg) <-> exists t, In (id, t) reg.
Proof.
  split.
  - intros I. apply in_map_iff in I as ([i t] & <- & I). now exists t.
  - intros [t I]. apply in_map_iff. now exists (id, t).
Qed.

Lemma requests_of_in id t : In t (requests_of id) -> In t request_types /\ the_id t = id.
Proof.
  unfold requests_of. generalize request_types. intros l I. apply filter_In in I as [I E].
  apply N.eqb_eq in E. auto.
Qed.

Lemma sorted_cases (lingo : N) (rs ts : list pty) :
  sorted_lists lingo rs ts = true ->
  (rs = [] /\ Forall (fun t => is_request t = false) ts)
  \/ (rs = ts /\ ts <> [] /\ ((exists t, ts = [t]) \/ lingo = 4%N)).
Proof.
  unfold sorted_lists. destruct rs as [|r rs]; intros S.
  - left. split; [reflexivity|]. rewrite forallb_forall in S. apply Forall_forall.
    intros u U. specialize (S u U). now destruct (is_request u).
  - right. apply andb_prop in S as [D S]. apply same_types_eq in D.
    split; [exact D|]. split; [rewrite <- D; discriminate|].
    apply orb_prop in S as [S|S].
    + left. apply Nat.eqb_eq in S. destruct ts as [|u [|v ts']]; try discriminate S. now exists u.
    + right. now apply N.eqb_eq.
Qed.

Lemma sorted_ids id : In id (map fst std_registry) -> sorted_out request_pairs id = true.
Proof.
  intros I. rewrite in_ids in I. destruct I as [t I].
  pose proof (proj1 (forallb_forall (fun e => sorted_out request_pairs (fst e)) std_registry) sorted_registry) as S.
  exact (S _ I).
Qed.

Lemma sorted_eq id :
  sorted_out request_pairs id = sorted_lists (LingoID id) (requests_of id) (types_of std_registry id).
Proof. unfold sorted_out. rewrite requests_pairs. exact eq_refl. Qed.

Lemma requests_or_none id :
  (requests_of id = [] /\ Forall (fun t => is_request t = false) (types_of std_registry id))
  \/ (requests_of id = types_of std_registry id /\ types_of std_registry id <> []
      /\ ((exists t, types_of std_registry id = [t]) \/ LingoID id = 4%N)).
Proof.
  destruct (in_dec N.eq_dec id (map fst std_registry)) as [I|I].
  - apply sorted_cases. rewrite <- sorted_eq. exact (sorted_ids id I).
  - left. rewrite in_ids in I. split.
    + destruct (requests_of id) as [|t l] eqn:F; [reflexivity|]. exfalso.
      assert (H : In t (requests_of id)) by (rewrite F; now left). apply requests_of_in in H as [H1 H2].
      apply I. exists t. rewrite <- H2. exact (request_registered t H1).
    + rewrite types_of_nil; [constructor|]. intros t T. apply I. exists t. exact T.
Qed.

Lemma prefix_inj a b : wire_id a -> wire_id b -> id_prefix a = id_prefix b -> a = b.
Proof.
  intros A B E. destruct (packet_id_prefix a [] A) as [P _]. destruct (packet_id_prefix b [] B) as [Q _].
  rewrite E in P. congruence.
Qed.

(** The rows of an identifier, with their types. *)
Lemma rows_of rt clock id :
  wire_id id ->
  Forall2 (good rt clock) (requests_of id)
    (filter (fun r => if list_eq_dec Byte.byte_eq_dec (id_prefix id) (fst (fst r)) then true else false) (requests rt clock)).
Proof.
  intros W. unfold requests_of. pose proof (rows_good rt clock) as G.
  assert (R : forall t, In t request_types -> wire_id (the_id t)).
  { intros t I. apply request_registered in I. exact (std_wire_id _ _ I). }
  revert R G. generalize request_types (requests rt clock). intros ts rs R G.
  induction G as [|t r ts rs H G IH]; [constructor|].
  assert (R' : forall t, In t ts -> wire_id (the_id t)) by (intros; apply R; now right).
  specialize (IH R'). cbn [filter].
  destruct r as [[pre size] f]. pose proof (proj1 H) as E. cbn [fst snd].
  destruct (list_eq_dec Byte.byte_eq_dec (id_prefix id) pre) as [D|D].
  - rewrite E in D. apply prefix_inj in D; [|exact W|apply R; now left]. rewrite <- D, N.eqb_refl.
    apply Forall2_cons; [exact H|exact IH].
  - destruct (N.eqb_spec (the_id t) id) as [E2|E2]; [|exact IH]. destruct D. now rewrite E, E2.
Qed.

(** ** Identifiers *)

Lemma split_packet p :
  match split_id p with
  | None => packet_id p = None
  | Some (pre, b) => exists id, packet_id p = Some id /\ packet_body p = b /\ id_prefix id = pre /\ wire_id id
  end.
Proof.
  unfold split_id.
  assert (C : p = [] \/ (exists r, p = x04 :: r) \/ (exists l r, p = l :: r /\ l <> x04)).
  { destruct p as [|l r]; [now left|]. right. destruct (Byte.byte_eq_dec l x04) as [->|N]; eauto. }
  destruct C as [-> | [[r ->] | (l & r & -> & N)]].
  - reflexivity.
  - destruct r as [|c [|d r]]; [reflexivity..|]. cbn [List.length Nat.ltb Nat.leb firstn skipn].
    unfold packet_id, packet_body. change (b2n x04 =? 4)%N with true. cbv iota.
    eexists. split; [reflexivity|]. split; [reflexivity|].
    pose proof (b2n_lt c). pose proof (b2n_lt d).
    split; [|unfold wire_id; split; [lia|left; lia]].
    unfold id_prefix. replace ((4 * 65536 + b2n c * 256 + b2n d) / 65536 =? 4)%N with true by lia.
    f_equal. f_equal; [|f_equal]; rewrite <- byte_back; f_equal; lia.
  - replace (match l :: r with x04 :: _ => 3 | _ => 2 end) with 2 by (destruct l; try reflexivity; now destruct N).
    destruct r as [|c r]; [reflexivity|]. cbn [List.length Nat.ltb Nat.leb firstn skipn].
    assert (E : (b2n l =? 4)%N = false).
    { apply N.eqb_neq. intros E. apply N. apply byte_is in E. exact E. }
    unfold packet_id, packet_body. rewrite E.
    eexists. split; [reflexivity|]. split; [reflexivity|].
    pose proof (b2n_lt c). pose proof (b2n_lt l).
    split; [|unfold wire_id; split; [lia|right; lia]].
    unfold id_prefix. replace ((b2n l * 65536 + b2n c) / 65536)%N with (b2n l) by lia. rewrite E.
    f_equal; [|f_equal]; rewrite <- byte_back; f_equal; lia.
Qed.

Lemma switched_mode e id : wire_id id -> switched e (id_prefix id) = mode_after e [id].
Proof.
  intros W. cbn [mode_after]. unfold controls.
  destruct (N.eqb_spec id 0) as [->|N0]; [reflexivity|].
  destruct (N.eqb_spec id 19) as [->|N1]; [reflexivity|].
  destruct (N.eqb_spec id 56) as [->|N2]; [reflexivity|].
  assert (A : forall i, (i < 256)%N -> id_prefix id = [x00; n2b i] -> id = i).
  { intros i I E. apply (prefix_inj id i W); [unfold wire_id; split; [lia|right; lia]|].
    rewrite E. unfold id_prefix. replace (i / 65536)%N with 0%N by lia. cbn [N.eqb]. f_equal. f_equal. f_equal. lia. }
  unfold switched. destruct (id_prefix id) as [|a pre] eqn:E; [reflexivity|].
  destruct a; try reflexivity. destruct pre as [|b pre]; [reflexivity|].
  destruct b; try reflexivity; (destruct pre as [|c pre]; [|reflexivity]);
    exfalso; [apply N0, (A 0%N)|apply N1, (A 19%N)|apply N2, (A 56%N)]; solve [reflexivity | lia].
Qed.

(** ** Commands the program does not know *)

Definition sizes_of (ts : list pty) : list nat :=
  flat_map (fun t => match struct_size (layout t) with Some n => [n; n + 2] | None => [] end) ts.

Lemma lookup_sizes ts n : lookup_by_size ts n = None <-> ~ In n (sizes_of ts).
Proof.
  unfold sizes_of. induction ts as [|t ts IH]; [cbn; tauto|]. cbn [lookup_by_size flat_map].
  destruct (struct_size (layout t)) as [m|]; [|exact IH].
  rewrite in_app_iff. cbn [In].
  destruct (Nat.eqb_spec m n) as [E|E]; [split; [discriminate|intros H; exfalso; apply H; tauto]|].
  destruct (Nat.eqb_spec (m + 2) n) as [E2|E2]; [split; [discriminate|intros H; exfalso; apply H; tauto]|].
  rewrite IH. tauto.
Qed.

Definition same_sizes (a b : list nat) : bool :=
  forallb (fun n => existsb (Nat.eqb n) b) a && forallb (fun n => existsb (Nat.eqb n) a) b.

Definition knows (ts : list pty) (c : byte) : bool :=
  let k := existsb (N.eqb (b2n c)) known_general in
  match ts with
  | [] => negb k && match known_sizes c with [] => true | _ => false end
  | [_] => k
  | ts => negb k && same_sizes (sizes_of ts) (known_sizes c)
  end.

Lemma all_known : forallb (fun i => knows (types_of std_registry (N.of_nat i)) (n2b (N.of_nat i))) (List.seq 0 256) = true.
Proof. vm_cast_no_check (eq_refl true). Qed.

Lemma knows_byte c : knows (types_of std_registry (b2n c)) c = true.
Proof.
  pose proof (proj1 (forallb_forall _ _) all_known (N.to_nat (b2n c))) as H. cbv beta in H.
  rewrite N2Nat.id, byte_back in H. apply H. apply in_seq. pose proof (b2n_lt c). lia.
Qed.

Definition found {A} (o : option A) : bool := match o with Some _ => true | None => false end.

Lemma strange_general ts c b e :
  knows ts c = true ->
  strange_command [x00; c] b
  = negb (found (match lookup_by_size ts (List.length b) with
                 | Some r => Some r
                 | None => match ts with [t] => Some (mkLookup t e) | _ => None end
                 end)).
Proof.
  unfold strange_command, knows. cbv zeta. generalize (existsb (N.eqb (b2n c)) known_general). intros k H.
  destruct ts as [|t [|u ts]].
  - apply andb_prop in H as [H1 H2]. rewrite H1. destruct (known_sizes c); [reflexivity|discriminate H2].
  - rewrite H. cbn [negb andb]. destruct (lookup_by_size [t] _); reflexivity.
  - apply andb_prop in H as [H1 H2]. rewrite H1. cbn [andb].
    pose proof (lookup_sizes (t :: u :: ts) (List.length b)) as L. revert H2 L. generalize (sizes_of (t :: u :: ts)).
    intros l S L. destruct (lookup_by_size (t :: u :: ts) (List.length b)) as [r|].
    + cbn [found negb]. apply Bool.negb_false_iff. apply existsb_exists. exists (List.length b).
      split; [|apply Nat.eqb_refl].
      assert (I : In (List.length b) l).
      { destruct (in_dec Nat.eq_dec (List.length b) l) as [I|I]; [exact I|]. apply L in I. discriminate I. }
      unfold same_sizes in S. apply andb_prop in S as [S _]. rewrite forallb_forall in S. specialize (S _ I).
      apply existsb_exists in S as (m & M & E). apply Nat.eqb_eq in E. now subst m.
    + cbn [found negb]. apply Bool.negb_true_iff. apply Bool.not_true_is_false. intros X.
      apply existsb_exists in X as (m & M & E). apply Nat.eqb_eq in E. subst m.
      apply (proj1 L eq_refl).
      unfold same_sizes in S. apply andb_prop in S as [_ S]. rewrite forallb_forall in S. specialize (S _ M).
      apply existsb_exists in S as (m & I & E). apply Nat.eqb_eq in E. now subst m.
Qed.

Lemma strange_iff id b e :
  wire_id id ->
  strange_command (id_prefix id) b
  = (LingoID id =? 0)%N && negb (found (Lookup std_registry id (List.length b) e)).
Proof.
  intros W. pose proof W as [W1 W2]. rewrite LingoID_eq. replace (id / 65536 mod 256)%N with (id / 65536)%N by lia.
  destruct (N.eqb_spec (id / 65536) 0) as [Z|Z].
  - assert (I : (id < 256)%N) by lia.
    unfold id_prefix. rewrite Z. cbn [N.eqb andb]. change (n2b 0) with x00.
    replace (id mod 256)%N with id by lia.
    assert (B : b2n (n2b id) = id) by (rewrite b2n_n2b; lia).
    pose proof (knows_byte (n2b id)) as K. rewrite B in K. unfold Lookup. exact (strange_general _ _ b e K).
  - cbn [andb]. unfold id_prefix. destruct (N.eqb_spec (id / 65536) 4) as [F|F]; [reflexivity|].
    unfold strange_command. destruct (n2b (id / 65536)) eqn:E; try reflexivity.
    exfalso. apply Z. rewrite <- (N.mod_small (id / 65536) 256) by lia. rewrite <- b2n_n2b, E. reflexivity.
Qed.

(** ** Understanding *)

Definition fits (b : bytes) (r : request) : bool :=
  match snd (fst r) with Some n => size_fits n b | None => false end.

Lemma understand_eq numbers rs b :
  understand numbers rs b
  = match find (fits b) rs with
    | Some (_, Some n, f) =>
        if Nat.eqb (List.length b) n then Some (None, b, f) else Some (Some (firstn 2 b), skipn 2 b, f)
    | _ =>
        match rs with
        | [(_, size, f)] =>
            match take_number numbers b, size with
            | Some (t, c), None => Some (t, c, f)
            | Some (t, c), Some n => if Nat.ltb (List.length c) n then None else Some (t, firstn n c, f)
            | None, _ => None
            end
        | _ => None
        end
    end.
Proof. reflexivity. Qed.

Lemma find_by_size rt clock ts rs b :
  Forall2 (good rt clock) ts rs ->
  match lookup_by_size ts (List.length b) with
  | Some (mkLookup t x) =>
      exists id n f, find (fits b) rs = Some (id, Some n, f) /\ In t ts /\ good rt clock t (id, Some n, f)
        /\ (if x then List.length b = n + 2 else List.length b = n)
  | None => find (fits b) rs = None
  end.
Proof.
  induction 1 as [|t r ts rs G F IH]; [reflexivity|]. cbn [lookup_by_size find].
  destruct r as [[id size] f]. pose proof (proj1 (proj2 G)) as Z. unfold fits at 1 3. cbn [fst snd].
  rewrite Z in *. destruct (struct_size (layout t)) as [n|].
  - unfold size_fits. destruct (Nat.eqb_spec n (List.length b)) as [E|E].
    + replace (Nat.eqb (List.length b) n) with true by (symmetry; apply Nat.eqb_eq; lia). cbn [orb].
      exists id, n, f. split; [reflexivity|]. split; [now left|]. split; [exact G|]. now symmetry.
    + replace (Nat.eqb (List.length b) n) with false by (symmetry; apply Nat.eqb_neq; lia). cbn [orb].
      destruct (Nat.eqb_spec (n + 2) (List.length b)) as [E2|E2].
      * replace (Nat.eqb (List.length b) (n + 2)) with true by (symmetry; apply Nat.eqb_eq; lia).
        exists id, n, f. split; [reflexivity|]. split; [now left|]. split; [exact G|]. now symmetry.
      * replace (Nat.eqb (List.length b) (n + 2)) with false by (symmetry; apply Nat.eqb_neq; lia).
        destruct (lookup_by_size ts _) as [[u x]|]; [|exact IH].
        destruct IH as (id' & n' & f' & I1 & I2 & I3). exists id', n', f'. split; [exact I1|]. split; [now right|exact I3].
  - destruct (lookup_by_size ts _) as [[u x]|]; [|exact IH].
    destruct IH as (id' & n' & f' & I1 & I2 & I3). exists id', n', f'. split; [exact I1|]. split; [now right|exact I3].
Qed.

Lemma number_kept b : 2 <= List.length b -> numbers_of (Some (be_dec (firstn 2 b))) = Some (firstn 2 b).
Proof.
  intros L. destruct b as [|x [|y b]]; [cbn in L; lia..|]. cbn [firstn numbers_of option_map].
  f_equal. unfold trx_bytes. rewrite be_dec_2. pose proof (b2n_lt x). pose proof (b2n_lt y).
  f_equal; [|f_equal]; rewrite <- byte_back; f_equal; lia.
Qed.

Lemma longer_content rt t n c :
  struct_size (layout t) = Some n -> n <= List.length c -> payload_unmarshal rt t c = payload_unmarshal rt t (firstn n c).
Proof.
  intros H L. rewrite !(fixed_unmarshal rt t n _ H). unfold binary_read. rewrite H.
  rewrite !read_full_ok by (rewrite ?firstn_length; lia). cbn [fst].
  rewrite firstn_firstn, Nat.min_id. reflexivity.
Qed.

Lemma shorter_content rt t n c :
  struct_size (layout t) = Some n -> List.length c < n -> exists x, payload_unmarshal rt t c = Ret (false, Err x).
Proof.
  intros H L. rewrite (fixed_unmarshal rt t n _ H). unfold binary_read. rewrite H.
  rewrite read_full_short by exact L. eexists. reflexivity.
Qed.

(** ** One packet *)

(** A packet is handled as the machine says. *)
Definition handled (rt : bool) (clock : nat -> datetime) (e : bool) (h : hstate DevGeneral) (p : bytes)
  (said : option (memory * list reply)) : Prop :=
  match said with
  | None => UnmarshalCmd rt std_registry e p = Panic
  | Some (m, l) =>
      exists e' c x, UnmarshalCmd rt std_registry e p = Ret (e', c, x)
        /\ post (handlePacket std_registry clock DevGeneral_device c) h
             (fun h' _ evs => (dg_uimode (h_dev h') <= 1)%N /\ mem e' h' = m /\ Forall2 (conveys rt) (written evs) l)
  end.

(** What is answered to an understood request. *)
Definition answered (m : memory) (t : option bytes) (c : bytes) (f : reaction) : option (memory * list reply) :=
  match f m c with
  | None => None
  | Some (m1, l) =>
      let '(n, replies) := with_numbers t (last_number m1) l in
      Some (mkMemory (numbered m1) (extended m1) n (readings m1), replies)
  end.

(** A request of type [t], its number [tr] and its content [c] found. *)
Lemma handled_found rt clock e h p id t (b : bool) pre size f :
  (dg_uimode (h_dev h) <= 1)%N ->
  packet_id p = Some id -> the_id t = id ->
  Lookup std_registry id (List.length (packet_body p)) (mode_after e [id]) = Some (mkLookup t b) ->
  (b = true -> 2 <= List.length (packet_body p)) ->
  good rt clock t (pre, size, f) ->
  let c := if b then skipn 2 (packet_body p) else packet_body p in
  let k := match size with Some n => firstn n c | None => c end in
  (forall n, size = Some n -> n <= List.length c) ->
  handled rt clock e h p
    (answered (mem (mode_after e [id]) h) (if b then Some (firstn 2 (packet_body p)) else None) k f).
Proof.
  intros U P T L B G c k S.
  set (e1 := mode_after e [id]) in *.
  set (tr := if b then Some (be_dec (firstn 2 (packet_body p))) else None).
  assert (NT : numbers_of tr = if b then Some (firstn 2 (packet_body p)) else None).
  { unfold tr. destruct b; [apply number_kept; auto|reflexivity]. }
  rewrite <- NT.
  destruct G as (_ & Z & G). specialize (G tr k h e1).
  assert (K : forall n, size = Some n -> List.length k = n).
  { intros n E. specialize (S n E). unfold k. rewrite E, firstn_length. lia. }
  specialize (G K U).
  assert (C : payload_unmarshal rt t c = payload_unmarshal rt t k).
  { unfold k. destruct size as [n|]; [|reflexivity]. apply longer_content; auto. }
  pose proof (UnmarshalCmd_found rt std_registry e p id t b P L) as UC. cbv zeta in UC.
  replace (b && Nat.ltb (List.length (packet_body p)) 2) with false in UC.
  2: { destruct b; [|reflexivity]. cbn [andb]. symmetry. apply Nat.ltb_ge. auto. }
  change (if b then skipn 2 (packet_body p) else packet_body p) with c in UC.
  change (if b then Some (be_dec (firstn 2 (packet_body p))) else None) with tr in UC.
  rewrite C in UC. unfold answered.
  destruct (payload_unmarshal rt t k) as [[w r]|]; cbn [bind] in UC.
  - rewrite T in G.
    assert (HP : exists x, UnmarshalCmd rt std_registry e p
                 = Ret (e1, mkCmd id tr (match r with Ok q => Some q | Err _ => None end), x)).
    { rewrite UC. destruct r, w; eexists; reflexivity. }
    destruct HP as [x HP]. destruct G as (h' & a & evs & D & U' & m1 & l & E1 & E2 & E3).
    rewrite E1. destruct (with_numbers (numbers_of tr) (last_number m1) l) as [n replies]. cbn [fst snd] in *.
    unfold handled. exists e1, (mkCmd id tr (match r with Ok q => Some q | Err _ => None end)), x.
    split; [exact HP|]. exists h', a, evs. auto.
  - rewrite G. exact UC.
Qed.

(** Nothing happens. *)
Lemma handled_nothing rt clock e h p e' c x :
  (dg_uimode (h_dev h) <= 1)%N ->
  UnmarshalCmd rt std_registry e p = Ret (e', c, x) ->
  (forall Q : hstate DevGeneral -> unit -> list event -> Prop, Q h tt [] -> post (handlePacket std_registry clock DevGeneral_device c) h Q) ->
  handled rt clock e h p (Some (mem e' h, [])).
Proof.
  intros U E H. exists e', c, x. split; [exact E|]. apply H. split; [exact U|]. split; [reflexivity|constructor].
Qed.

Lemma mem_mode e e' h : mkMemory e' (extended (mem e h)) (last_number (mem e h)) (readings (mem e h)) = mem e' h.
Proof. reflexivity. Qed.

Lemma handled_unknown rt clock e h p id b :
  (dg_uimode (h_dev h) <= 1)%N ->
  packet_id p = Some id -> wire_id id -> packet_body p = b ->
  Lookup std_registry id (List.length b) (mode_after e [id]) = None ->
  handled rt clock e h p
    (Some (mem (mode_after e [id]) h,
           if strange_command (id_prefix id) b then [Reply [x00; x02] None [x05; nth 1 (id_prefix id) x00]] else [])).
Proof.
  intros U P W B L. rewrite (strange_iff id b (mode_after e [id]) W), L. cbn [found negb]. rewrite andb_true_r.
  pose proof (UnmarshalCmd_unknown rt std_registry e p id P) as UC. rewrite B in UC. specialize (UC L).
  unfold handled. do 3 eexists. split; [exact UC|].
  unfold handlePacket. cbn [cmd_id cmd_payload]. cbv zeta.
  destruct (N.eqb_spec (LingoID id) LingoGeneralID) as [Z|Z].
  - unfold LingoGeneralID in Z. rewrite Z. cbn [N.eqb].
    unfold HandleGeneral. cbn [cmd_payload]. hrun.
    split; [exact U|]. split; [reflexivity|]. cbn [app written flat_map cmd_trx].
    apply Forall2_cons; [|apply Forall2_nil]. conc general_ACK.
    change (@None bytes) with (numbers_of None). eapply convey_reply; [right; split; reflexivity|reflexivity|reflexivity|].
    unfold cmd8. cbn [cmd_id enc_fields enc_field]. 
    pose proof W as [W1 W2]. rewrite LingoID_eq in Z. 
    assert (id < 256)%N by lia.
    unfold id_prefix. replace (id / 65536)%N with 0%N by lia. cbn [N.eqb nth].
    change (enc_fields (layout general_ACK) [VU ACKStatusUnkownID; VU (CmdID id mod 256)]) with [x05; n2b (CmdID id mod 256)].
    rewrite CmdID_eq. replace (id mod 65536 mod 256)%N with (id mod 256)%N by lia. reflexivity.
  - replace (LingoID id =? 0)%N with false by (symmetry; apply N.eqb_neq; exact Z).
    destruct (LingoID id =? LingoDisplayRemoteID)%N.
    { apply post_seq. unfold HandleDispRemote. cbn [cmd_payload]. apply post_ret, post_ret.
      split; [exact U|]. split; [reflexivity|constructor]. }
    destruct (LingoID id =? LingoExtRemoteID)%N.
    { apply post_ret. split; [exact U|]. split; [reflexivity|constructor]. }
    destruct (LingoID id =? LingoDigitalAudioID)%N; apply post_ret;
      (split; [exact U|]; split; [reflexivity|constructor]).
Qed.


Lemma handled_quiet rt clock e h p id t b :
  (dg_uimode (h_dev h) <= 1)%N ->
  packet_id p = Some id ->
  Lookup std_registry id (List.length (packet_body p)) (mode_after e [id]) = Some (mkLookup t b) ->
  is_request t = false ->
  handled rt clock e h p (Some (mem (mode_after e [id]) h, [])).
Proof.
  intros U P L R. pose proof (UnmarshalCmd_found rt std_registry e p id t b P L) as UC. cbv zeta in UC.
  destruct (b && Nat.ltb (List.length (packet_body p)) 2).
  - eapply handled_nothing; [exact U|exact UC|]. intros Q. apply handle_nothing.
  - destruct (quiet_unmarshal rt t (if b then skipn 2 (packet_body p) else packet_body p) R) as (w & r & X).
    rewrite X in UC. cbn [bind] in UC.
    destruct r as [q|x].
    + apply payload_unmarshal_type in X.
      destruct w; (eapply handled_nothing; [exact U|exact UC|]; intros Q; exact (handle_quiet _ _ _ _ _ _ _ _ X R)).
    + destruct w; (eapply handled_nothing; [exact U|exact UC|]; intros Q; apply handle_nothing).
Qed.

Lemma handled_short rt clock e h p id t b n :
  (dg_uimode (h_dev h) <= 1)%N ->
  packet_id p = Some id ->
  Lookup std_registry id (List.length (packet_body p)) (mode_after e [id]) = Some (mkLookup t b) ->
  (b = true /\ List.length (packet_body p) < 2)
  \/ struct_size (layout t) = Some n /\ List.length (if b then skipn 2 (packet_body p) else packet_body p) < n ->
  handled rt clock e h p (Some (mem (mode_after e [id]) h, [])).
Proof.
  intros U P L R. pose proof (UnmarshalCmd_found rt std_registry e p id t b P L) as UC. cbv zeta in UC.
  destruct R as [[-> R] | [R1 R2]].
  - apply Nat.ltb_lt in R. rewrite R in UC. cbn [andb] in UC.
    eapply handled_nothing; [exact U|exact UC|]. intros Q. apply handle_nothing.
  - destruct (shorter_content rt t n _ R1 R2) as (x & X). rewrite X in UC. cbn [bind] in UC.
    destruct (b && Nat.ltb (List.length (packet_body p)) 2);
      (eapply handled_nothing; [exact U|exact UC|]; intros Q; apply handle_nothing).
Qed.

(** What the machine does with the packet's body. *)
Definition react (rs : list request) (m : memory) (pre b : bytes) : option (memory * list reply) :=
  match understand (numbered m) rs b with
  | Some (t, c, f) => answered m t c f
  | None => Some (m, if strange_command pre b then [Reply [x00; x02] None [x05; nth 1 pre x00]] else [])
  end.

Lemma receive_react rt clock m p pre b :
  split_id p = Some (pre, b) ->
  receive rt clock m p
  = react (filter (fun r => if list_eq_dec Byte.byte_eq_dec pre (fst (fst r)) then true else false) (requests rt clock))
      (mkMemory (switched (numbered m) pre) (extended m) (last_number m) (readings m)) pre b.
Proof. intros E. unfold receive, react, answered. rewrite E. generalize (requests rt clock). intros rs. reflexivity. Qed.

Lemma handled_react rt clock e h p id rs ts :
  (dg_uimode (h_dev h) <= 1)%N ->
  packet_id p = Some id -> wire_id id ->
  types_of std_registry id = ts ->
  (rs = [] /\ Forall (fun t => is_request t = false) ts)
  \/ (Forall2 (good rt clock) ts rs /\ Forall (fun t => the_id t = id) ts) ->
  handled rt clock e h p (react rs (mem (mode_after e [id]) h) (id_prefix id) (packet_body p)).
Proof.
  intros U P W T C. unfold react. cbn [numbered mem].
  pose proof (strange_iff id (packet_body p) (mode_after e [id]) W) as ST.
  pose proof (handled_unknown rt clock e h p id (packet_body p) U P W eq_refl) as HU.
  pose proof (fun t b => handled_quiet rt clock e h p id t b U P) as HQ.
  pose proof (fun t b n => handled_short rt clock e h p id t b n U P) as HS.
  pose proof (fun t b pre size f => handled_found rt clock e h p id t b pre size f U P) as HF.
  unfold Lookup in ST, HU, HQ, HS, HF. rewrite T in ST, HU, HQ, HS, HF. cbv zeta in ST, HU, HQ, HS, HF. clear T.
  set (e1 := mode_after e [id]) in *. set (b := packet_body p) in *.
  destruct C as [[-> C] | [G I]].
  - cbn [understand find].
    assert (IL : forall t x, lookup_by_size ts (List.length b) = Some (mkLookup t x) -> is_request t = false).
    { intros t x E. rewrite Forall_forall in C. apply C.
      pose proof (lookup_by_size_spec ts (List.length b)) as LS. rewrite E in LS.
      destruct LS as (l1 & l2 & m & -> & _). apply in_elt. }
    destruct (lookup_by_size ts (List.length b)) as [[t x]|] eqn:L.
    + rewrite ST. cbn [found negb]. rewrite Bool.andb_false_r.
      apply (HQ t x eq_refl). apply (IL t x eq_refl).
    + destruct ts as [|t [|u ts]].
      * apply HU. reflexivity.
      * rewrite ST. cbn [found negb]. rewrite Bool.andb_false_r.
        apply (HQ t e1 eq_refl). now inversion C.
      * apply HU. reflexivity.
  - pose proof (find_by_size rt clock ts rs b G) as FS.
    rewrite (understand_eq e1 rs b).
    rewrite Forall_forall in I.
    destruct (lookup_by_size ts (List.length b)) as [[t x]|] eqn:L.
    + destruct FS as (pre & n & f & -> & IN & GT & LB).
      specialize (HF t x pre (Some n) f (I _ IN) eq_refl).
      assert (Z : x = true -> 2 <= List.length b) by (intros ->; lia).
      specialize (HF Z GT).
      destruct x.
      * replace (Nat.eqb (List.length b) n) with false by (symmetry; apply Nat.eqb_neq; lia).
        assert (K : List.length (skipn 2 b) = n) by (rewrite skipn_length; lia).
        rewrite <- K, firstn_all in HF. apply HF. intros m E. injection E as <-. exact (Nat.le_refl _).
      * rewrite LB, Nat.eqb_refl. rewrite <- LB, firstn_all in HF. apply HF. intros m E. injection E as <-. exact (Nat.le_refl _).
    + rewrite FS. destruct G as [|t r ts rs GT G].
      * apply HU. reflexivity.
      * destruct G as [|t2 r2 ts rs GT2 G].
        -- destruct r as [[pre size] f].
           specialize (HF t e1 pre size f (I _ (or_introl eq_refl)) eq_refl).
           specialize (HS t e1).
           rewrite ST. cbn [found negb]. rewrite Bool.andb_false_r.
           unfold take_number. destruct e1 eqn:E1.
           ++ destruct (Nat.ltb_spec (List.length b) 2) as [B|B].
              ** apply (HS 0 eq_refl). left. auto.
              ** specialize (HF (fun _ => B) GT). destruct size as [n|].
                 --- destruct (Nat.ltb_spec (List.length (skipn 2 b)) n) as [K|K].
                     +++ apply (HS n eq_refl). right. split; [exact (eq_sym (proj1 (proj2 GT)))|exact K].
                     +++ apply HF. intros m E. injection E as <-. exact K.
                 --- apply HF. intros m E. discriminate E.
           ++ specialize (HF (fun H => False_ind _ (Bool.diff_false_true H)) GT). destruct size as [n|].
              ** destruct (Nat.ltb_spec (List.length b) n) as [K|K].
                 --- apply (HS n eq_refl). right. split; [exact (eq_sym (proj1 (proj2 GT)))|exact K].
                 --- apply HF. intros m E. injection E as <-. exact K.
              ** apply HF. intros m E. discriminate E.
        -- destruct r as [[pre size] f]. apply HU. reflexivity.
Qed.

Lemma no_rows {A B} (R : A -> B -> Prop) l : Forall2 R [] l -> l = [].
Proof. now inversion 1. Qed.

Theorem packet_handled rt clock e h p :
  (dg_uimode (h_dev h) <= 1)%N -> handled rt clock e h p (receive rt clock (mem e h) p).
Proof.
  intros U. pose proof (split_packet p) as S.
  destruct (split_id p) as [[pre b]|] eqn:SP.
  2: { destruct (UnmarshalCmd_short rt std_registry e p S) as (x & E & _).
       unfold receive. rewrite SP.
       eapply handled_nothing; [exact U|exact E|]. intros Q. apply handle_nothing. }
  destruct S as (id & P & B & I & W). rewrite (receive_react _ _ _ _ _ _ SP). rewrite <- B, <- I.
  cbn [numbered mem]. rewrite switched_mode by exact W.
  change (mkMemory (mode_after e [id]) _ _ _) with (mem (mode_after e [id]) h).
  pose proof (rows_of rt clock id W) as F.
  apply handled_react with (types_of std_registry id); [exact U|exact P|exact W|reflexivity|].
  destruct (requests_or_none id) as [[R1 R2] | (R1 & R2 & R3)].
  - left. split; [|exact R2]. rewrite R1 in F. exact (no_rows _ _ F).
  - right. rewrite R1 in F. split; [exact F|]. rewrite <- R1. apply Forall_forall. intros t IN.
    apply requests_of_in in IN as [_ IN]. exact IN.
Qed.
