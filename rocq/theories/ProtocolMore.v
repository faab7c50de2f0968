(** Consequences of the protocol machine: what states have in common, batching, bounds on replies. *)
From Coq Require Import ZifyBool ZifyNat ZifyN.
From Verif Require Import Base BaseFacts GoTypes Types Payload Lingo Command SpecPayload SpecCommand
  Handlers SpecHandlers HandlersFacts SpecProtocol
  Packet SpecPacket PacketFacts PacketThms Hid SpecHid HidFacts HidThms Trace SpecTrace Server SpecServer ServerFacts ServerThms
  ProtocolFacts ProtocolTokens ProtocolThms SpecWire ProtocolProps.
Ltac Zify.zify_post_hook ::= Z.div_mod_to_equations.
#[local] Opaque std_registry.

(** ** Only the memory counts *)

Section Same.
  Context {W : Type} (rt : bool) (clock : nat -> datetime) (tp : transport W).

  Let process := process_frame rt std_registry clock DevGeneral_device tp.
  Let loop fuel := processFrames_loop fuel rt std_registry clock DevGeneral_device tp.

  Lemma same_frame st1 st2 w fr :
    sound st1 -> sound st2 -> memory_of st1 = memory_of st2 ->
    match process st1 w fr, process st2 w fr with
    | None, None => True
    | Some Panic, Some Panic => True
    | Some (Ret (s, w)), Some (Ret (s', w')) => w = w' /\ memory_of s = memory_of s' /\ sound s /\ sound s'
    | _, _ => False
    end.
  Proof.
    intros S1 S2 M. unfold process.
    assert (X : sv_mode st1 = sv_mode st2) by (apply (f_equal numbered) in M; exact M).
    destruct (process_frame_run rt clock tp st1 w fr S1) as [(fs & st' & A & S' & E)|[C E]].
    - destruct A as (ps & cs & evs & H & _). clear E.
      pose proof (frame_received rt clock tp st1 w fr ps S1 H) as F1.
      pose proof (frame_received rt clock tp st2 w fr ps S2 H) as F2. rewrite <- M in F2.
      destruct (receive_frame rt clock (memory_of st1) ps) as [[m fs2]|]; [|rewrite F1, F2; exact I].
      destruct F1 as (s1 & T1 & M1 & ->), F2 as (s2 & T2 & M2 & ->).
      destruct (feed tp w fs2) as [[w'|]|]; cbn [io_bind done]; auto. split; [reflexivity|]. split; [congruence|auto].
    - rewrite E. rewrite X in C.
      destruct (process_frame_run rt clock tp st2 w fr S2) as [(fs & st' & A & _)|[_ ->]]; [|exact I].
      exfalso. eapply answers_not_crashing; eassumption.
  Qed.

  Lemma same_runs fuel : forall st1 st2 w,
    sound st1 -> sound st2 -> memory_of st1 = memory_of st2 -> same_run (loop fuel st1 w) (loop fuel st2 w).
  Proof.
    unfold loop. induction fuel as [|fuel IH]; intros st1 st2 w S1 S2 M; [exact I|]. cbn [processFrames_loop].
    destruct (tp_ReadFrame tp w) as [[[w1 [fr|e]]|]|]; cbn [io_bind]; try exact I.
    - pose proof (same_frame st1 st2 w1 fr S1 S2 M) as F. unfold process in F.
      destruct (process_frame rt std_registry clock DevGeneral_device tp st1 w1 fr) as [[[s1 w2]|]|],
               (process_frame rt std_registry clock DevGeneral_device tp st2 w1 fr) as [[[s2 w3]|]|]; try contradiction; cbn [io_bind]; try exact I.
      destruct F as (-> & M2 & T1 & T2). now apply IH.
    - destruct e; [cbn; auto|now apply IH..].
  Qed.
End Same.

(** ** Batching *)

Lemma receive_all_app rt clock ps1 ps2 m :
  receive_all rt clock m (ps1 ++ ps2)
  = match receive_all rt clock m ps1 with
    | None => None
    | Some (m1, l1) => match receive_all rt clock m1 ps2 with None => None | Some (m2, l2) => Some (m2, l1 ++ l2) end
    end.
Proof.
  revert m. induction ps1 as [|p ps1 IH]; intros m; cbn [app receive_all].
  - destruct (receive_all rt clock m ps2) as [[m2 l2]|]; reflexivity.
  - destruct (receive rt clock m p) as [[m1 l1]|]; [|reflexivity]. rewrite IH.
    destruct (receive_all rt clock m1 ps1) as [[m2 l2]|]; [|reflexivity].
    destruct (receive_all rt clock m2 ps2) as [[m3 l3]|]; [|reflexivity]. now rewrite app_assoc.
Qed.

(** *** What the rows of the request table have in common *)

Definition saying_size (s : saying) : nat :=
  match s with Answer id c | Question id c => List.length id + List.length c | CannotAnswer => 0 end.

Definition tame (k : nat) (f : reaction) (size : option nat) : Prop :=
  forall m c m' l, match size with Some n => List.length c = n | None => True end ->
    f m c = Some (m', l) -> numbered m' = numbered m /\ List.length l <= 3 /\ Forall (fun s => saying_size s <= k) l.

Lemma tame_says k l size : Nat.leb (List.length l) 3 && forallb (fun s => Nat.leb (saying_size s) k) l = true -> tame k (says l) size.
Proof.
  intros H m c m' l' _ E. injection E as <- <-. apply andb_prop in H as [H1 H2]. apply Nat.leb_le in H1.
  split; [reflexivity|]. split; [exact H1|]. apply Forall_forall. intros s I. apply Nat.leb_le. exact (proj1 (forallb_forall _ _) H2 s I).
Qed.

Lemma tame_echoes k id f n : (forall c, List.length c = n -> List.length id + List.length (f c) <= k) -> tame k (echoes id f) (Some n).
Proof.
  intros H m c m' l' L E. injection E as <- <-. split; [reflexivity|]. split; [cbn; lia|].
  apply Forall_cons; [|apply Forall_nil]. cbn [saying_size]. auto.
Qed.

Lemma one_byte (c : bytes) : List.length c = 1 -> exists b, c = [b].
Proof. destruct c as [|b [|]]; try discriminate. eauto. Qed.

Ltac small := repeat (apply Forall_cons; [cbn; lia|]); apply Forall_nil.

Lemma tame_switch to c size : tame 23 (switch to c) size.
Proof.
  intros m x m' l _. unfold switch. destruct (Bool.eqb (extended m) to); intros E; injection E as <- <-;
    (split; [reflexivity|]; split; [cbn; lia|small]).
Qed.

Lemma tame_identify size : tame 23 identify size.
Proof.
  intros m x m' l _. unfold identify. destruct (forallb _ _); intros E; injection E as <- <-;
    (split; [reflexivity|]; split; [cbn; lia|small]).
Qed.

Lemma tame_certificate size : tame 23 certificate size.
Proof.
  intros m x m' l _. unfold certificate.
  destruct x as [|a [|b x]]; [| |destruct (b2n a <? 2)%N; [|destruct x as [|d [|e x]]; [| |destruct (b2n d <? b2n e)%N]]];
    intros E; injection E as <- <-; (split; [reflexivity|]; split; [cbn; lia|small]).
Qed.

Lemma tame_start size : tame 23 start_identification size.
Proof. intros m x m' l _ E. injection E as <- <-. split; [reflexivity|]. split; [cbn; lia|small]. Qed.

Lemma tame_end : tame 23 end_identification (Some 1).
Proof.
  intros m x m' l L E. apply one_byte in L as [b ->]. injection E as <- <-.
  destruct b; (split; [reflexivity|]; split; [cbn; lia|small]).
Qed.

Lemma tame_launch size : tame 23 launch size.
Proof.
  intros m x m' l _. unfold launch. destruct (Nat.ltb _ _); intros E; [discriminate E|]. injection E as <- <-.
  split; [reflexivity|]. split; [cbn; lia|small].
Qed.

Lemma version_size c : List.length c = 1 -> List.length (lingo_version c) <= 3.
Proof. intros L. apply one_byte in L as [b ->]. destruct b; cbn; lia. Qed.

Lemma options_size c : List.length c = 1 -> List.length (lingo_options c) <= 9.
Proof. intros L. apply one_byte in L as [b ->]. destruct b; cbn; lia. Qed.

Lemma tame_state clock : tame 23 (player_state clock) (Some 1).
Proof.
  intros m x m' l L E. apply one_byte in L as [b ->].
  assert (D : forall d, List.length (date_wire d) = 6) by (intros [[[[? ?] ?] ?] ?]; reflexivity).
  destruct b; injection E as <- <-; (split; [reflexivity|]; split; [cbn; lia|]);
    repeat (apply Forall_cons; [cbn [saying_size List.length]; rewrite ?D; cbn; lia|]); apply Forall_nil.
Qed.

Lemma tame_track size : tame 23 track_display size.
Proof.
  intros m x m' l _. unfold track_display. destruct x as [|b x]; [intros E; injection E as <- <-; split; [reflexivity|]; split; [cbn; lia|small]|].
  destruct b; intros E; injection E as <- <-; (split; [reflexivity|]; split; [cbn; lia|small]).
Qed.

Lemma ext_size (c : bytes) : List.length
  match c with
  | ty :: _ => ty :: match ty with
                     | x00 => zeros 4 ++ [x00; x04; x93; xe0] ++ [x00; x01]
                     | x03 | x04 => zeros 4
                     | x07 => []
                     | _ => [x00]
                     end
  | [] => []
  end <= 11.
Proof. destruct c as [|b c]; [cbn; lia|]. destruct b; cbn; lia. Qed.

(** Tokens. *)
Lemma token_size t a : SpecProtocol.token t = Accepted a -> List.length a <= 4.
Proof.
  unfold SpecProtocol.token, at_least. intros H.
  repeat match type of H with context [match ?x with _ => _ end] => destruct x; try discriminate H end;
    injection H as <-; cbn; lia.
Qed.

Lemma tokens_size rt n : forall d l, tokens rt n d = AcceptedAll l ->
  List.length l = n /\ List.length (flat_map (fun a => match a with Some b => b | None => [] end) l) <= 5 * n.
Proof.
  induction n as [|n IH]; intros d l; cbn [tokens]; [intros E; injection E as <-; cbn; lia|].
  destruct d as [|k r]; [discriminate|]. cbv zeta. destruct (SpecProtocol.token _) as [a| | |] eqn:T; try discriminate.
  - apply token_size in T. specialize (IH (skipn (N.to_nat (b2n k)) r)).
    destruct (tokens rt n _) as [l'| |]; cbn [and_then]; try discriminate. intros E. injection E as <-.
    destruct (IH l' eq_refl) as [<- H]. cbn [List.length flat_map]. rewrite app_length. cbn [List.length]. lia.
  - destruct rt; [discriminate|]. specialize (IH (skipn (N.to_nat (b2n k)) r)).
    destruct (tokens false n _) as [l'| |]; cbn [and_then]; try discriminate. intros E. injection E as <-.
    destruct (IH l' eq_refl) as [<- H]. cbn [List.length flat_map app]. lia.
Qed.

Lemma tame_identification rt size : tame 1278 (identification rt) size.
Proof.
  intros m x m' l _. unfold identification. destruct x as [|n r]; [intros E; injection E as <- <-; split; [reflexivity|]; split; [cbn; lia|small]|].
  pose proof (tokens_size rt (N.to_nat (b2n n)) r) as T.
  destruct (tokens rt (N.to_nat (b2n n)) r) as [a| |]; [|intros E; injection E as <- <-; split; [reflexivity|]; split; [cbn; lia|small]|discriminate].
  destruct (T a eq_refl) as [L S]. pose proof (b2n_lt n).
  destruct (forallb _ a); intros E; injection E as <- <-; (split; [reflexivity|]; split; [cbn; lia|]);
    (apply Forall_cons; [|apply Forall_nil]); cbn [saying_size List.length]; lia.
Qed.

Definition row_limit (id : bytes) : nat := if list_eq_dec Byte.byte_eq_dec id [x00; x39] then 1278 else 23.

Lemma rows_tame rt clock : Forall (fun r : request => tame (row_limit (fst (fst r))) (snd r) (snd (fst r))) (requests rt clock).
Proof.
  unfold requests.
  repeat (apply Forall_cons; [cbn [fst snd]|]); [..|apply Forall_nil];
  match goal with |- tame ?k _ _ => let v := eval vm_compute in k in change k with v end;
  try (apply tame_says; reflexivity).
  - intros m c m' l _ E. injection E as <- <-. split; [reflexivity|]. split; [cbn; lia|]. apply Forall_cons; [cbn; lia|apply Forall_nil].
  - apply tame_switch.
  - apply tame_switch.
  - apply tame_echoes. intros c L. apply version_size in L. cbn [List.length]. lia.
  - apply tame_identify.
  - apply tame_certificate.
  - apply tame_echoes. intros c L. rewrite firstn_length. cbn [List.length]. lia.
  - apply tame_echoes. intros c L. rewrite app_length. cbn [List.length]. lia.
  - intros m c m' l _ E. injection E as <- <-. split; [reflexivity|]. split; [cbn; lia|]. apply Forall_cons; [cbn; lia|apply Forall_nil].
  - apply tame_start.
  - apply tame_identification.
  - apply tame_end.
  - apply tame_echoes. intros c L. apply options_size in L. cbn [List.length]. lia.
  - apply tame_launch.
  - apply tame_state.
  - apply tame_track.
  - apply tame_echoes. intros c L. pose proof (ext_size c). cbn [List.length]. lia.
Qed.

#[local] Opaque requests.

(** ** What one packet leads to *)

Lemma understood_tame k numbers rs b t c f :
  Forall (fun r : request => tame k (snd r) (snd (fst r))) rs ->
  understand numbers rs b = Some (t, c, f) ->
  (t = None \/ exists x, t = Some x /\ List.length x <= 2)
  /\ exists size, tame k f size /\ match size with Some n => List.length c = n | None => True end.
Proof.
  intros T. rewrite understand_eq. destruct (find (fits b) rs) as [[[id [n|]] g]|] eqn:F.
  - apply find_some in F as [I F]. unfold fits in F. cbn [fst snd] in F. unfold size_fits in F.
    rewrite Forall_forall in T. specialize (T _ I). cbn [fst snd] in T.
    destruct (Nat.eqb (List.length b) n) eqn:E; intros X; injection X as <- <- <-.
    + split; [auto|]. exists (Some n). split; [exact T|]. lia.
    + split; [right; exists (firstn 2 b); split; [reflexivity|apply firstn_le_length]|]. exists (Some n). split; [exact T|].
      change (List.length (skipn 2 b) = n). rewrite skipn_length. lia.
  - apply find_some in F as [_ F]. discriminate F.
  - destruct rs as [|[[id size] g] [|]]; try discriminate. apply Forall_inv in T. cbn [fst snd] in T.
    unfold take_number. intros X.
    assert (Y : exists t' c', (t' = None \/ exists x, t' = Some x /\ List.length x <= 2)
              /\ match size with None => Some (t', c', g) | Some n => if Nat.ltb (List.length c') n then None else Some (t', firstn n c', g) end = Some (t, c, f)).
    { destruct numbers; [destruct (Nat.ltb (List.length b) 2); [discriminate X|]|].
      - exists (Some (firstn 2 b)), (skipn 2 b). split; [right; exists (firstn 2 b); split; [reflexivity|apply firstn_le_length]|].
        destruct size; exact X.
      - exists None, b. split; [auto|]. destruct size; exact X. }
    clear X. destruct Y as (t' & c' & Ht & Y). destruct size as [n|].
    + destruct (Nat.ltb (List.length c') n) eqn:L; [discriminate Y|]. injection Y as <- <- <-. split; [exact Ht|].
      exists (Some n). split; [exact T|]. rewrite firstn_length. lia.
    + injection Y as <- <- <-. split; [exact Ht|]. exists None. auto.
Qed.

Definition reply_limit (k : nat) (r : reply) : Prop := forall numbers, List.length (reply_bytes numbers r) <= k.

Lemma numbered_sayings k t l : (t = None \/ exists x, t = Some x /\ List.length x <= 2) ->
  Forall (fun s => saying_size s <= k) l -> forall n,
  List.length (snd (with_numbers t n l)) = List.length l /\ Forall (reply_limit (k + 2)) (snd (with_numbers t n l)).
Proof.
  intros T. induction 1 as [|s l L _ IH]; intros n; [split; [reflexivity|apply Forall_nil]|].
  destruct s as [id c| |id c]; cbn [with_numbers].
  - specialize (IH n). destruct (with_numbers t n l) as [n' rs]. cbn [snd] in *. destruct IH as [IH1 IH2].
    split; [cbn [List.length]; lia|]. apply Forall_cons; [|exact IH2]. intros e. cbn [saying_size] in L.
    destruct T as [->|(x & -> & X)]; cbn [reply_bytes]; [|destruct e]; rewrite ?app_length; cbn [List.length]; lia.
  - specialize (IH n). destruct (with_numbers t n l) as [n' rs]. cbn [snd] in *. destruct IH as [IH1 IH2].
    split; [cbn [List.length]; lia|]. apply Forall_cons; [|exact IH2]. intros e. cbn. lia.
  - specialize (IH (next_number n)). destruct (with_numbers t (next_number n) l) as [n' rs]. cbn [snd] in *. destruct IH as [IH1 IH2].
    split; [cbn [List.length]; lia|]. apply Forall_cons; [|exact IH2]. intros e. cbn [saying_size] in L.
    cbn [reply_bytes]. destruct e; rewrite ?app_length; cbn [List.length number_bytes]; lia.
Qed.

Lemma split_parts p pre b : split_id p = Some (pre, b) -> p = pre ++ b.
Proof.
  unfold split_id. destruct (Nat.ltb _ _); [discriminate|]. intros E. injection E as <- <-. symmetry. apply firstn_skipn.
Qed.

Lemma still_mode p pre b e : split_id p = Some (pre, b) -> ~ switches p -> switched e pre = e.
Proof.
  intros S N. apply split_parts in S. unfold switched.
  destruct pre as [|a pre]; [reflexivity|]. destruct a; try reflexivity.
  destruct pre as [|c [|]]; try (destruct c; reflexivity); try reflexivity.
  destruct c; try reflexivity; exfalso; apply N; subst p; eexists _, b; (split; [reflexivity|cbn; auto]).
Qed.

Lemma received rt clock m p m' l :
  receive rt clock m p = Some (m', l) ->
  (~ switches p -> numbered m' = numbered m)
  /\ List.length l <= 3
  /\ Forall (reply_limit 1280) l
  /\ (~ has_tokens p -> Forall (reply_limit 25) l).
Proof.
  destruct (split_id p) as [[pre b]|] eqn:S.
  2: { unfold receive. rewrite S. intros E. injection E as <- <-. split; [auto|]. split; [cbn; lia|]. split; [|intros _]; apply Forall_nil. }
  rewrite (receive_react rt clock m p pre b S). pose proof (rows_tame rt clock) as T. revert T. generalize (requests rt clock). intros rows T.
  set (sel := fun r : request => if list_eq_dec Byte.byte_eq_dec pre (fst (fst r)) then true else false).
  assert (T' : Forall (fun r : request => tame (row_limit pre) (snd r) (snd (fst r))) (filter sel rows)).
  { apply Forall_forall. intros r I. apply filter_In in I as [I E]. rewrite Forall_forall in T. specialize (T r I).
    unfold sel in E. destruct (list_eq_dec Byte.byte_eq_dec pre (fst (fst r))) as [->|]; [exact T|discriminate E]. }
  unfold react. cbn [numbered].
  destruct (understand _ _ _) as [[[t c] f]|] eqn:U.
  - destruct (understood_tame (row_limit pre) _ _ _ _ _ _ T' U) as (Ht & size & Tf & Hc).
    unfold answered. destruct (f _ c) as [[m1 s]|] eqn:F; [|discriminate].
    destruct (Tf _ _ _ _ Hc F) as (N1 & N2 & N3). cbn [numbered] in N1.
    destruct (numbered_sayings _ t s Ht N3 (last_number m1)) as [L1 L2].
    destruct (with_numbers t (last_number m1) s) as [n rs]. cbn [snd] in *. intros E. injection E as <- <-. cbn [numbered].
    split; [intros NS; rewrite N1; eapply still_mode; eassumption|]. split; [lia|].
    assert (R : row_limit pre = 23 \/ row_limit pre = 1278 /\ has_tokens p).
    { unfold row_limit. destruct (list_eq_dec Byte.byte_eq_dec pre [x00; x39]) as [->|]; [right|left; reflexivity].
      split; [reflexivity|]. exists b. now apply split_parts in S. }
    split.
    + eapply Forall_impl; [|exact L2]. intros r Hr e. specialize (Hr e). destruct R as [R|[R _]]; rewrite R in Hr; lia.
    + intros NT. eapply Forall_impl; [|exact L2]. intros r Hr e. specialize (Hr e). destruct R as [R|[_ R]]; [rewrite R in Hr; lia|contradiction].
  - intros E. injection E as <- <-. cbn [numbered]. split; [intros NS; eapply still_mode; eassumption|].
    destruct (strange_command pre b); (split; [cbn; lia|]);
      [|split; [|intros _]; apply Forall_nil].
    split; [|intros _]; (apply Forall_cons; [intros e; cbn; lia|apply Forall_nil]).
Qed.

Lemma received_all rt clock ps : forall m m' l,
  receive_all rt clock m ps = Some (m', l) ->
  (Forall (fun p => ~ switches p) ps -> numbered m' = numbered m)
  /\ List.length l <= 3 * List.length ps
  /\ Forall (reply_limit 1280) l
  /\ (Forall (fun p => ~ has_tokens p) ps -> Forall (reply_limit 25) l).
Proof.
  induction ps as [|p ps IH]; intros m m' l; cbn [receive_all].
  - intros E. injection E as <- <-. split; [auto|]. split; [cbn; lia|]. split; [|intros _]; apply Forall_nil.
  - destruct (receive rt clock m p) as [[m1 l1]|] eqn:R; [|discriminate].
    destruct (receive_all rt clock m1 ps) as [[m2 l2]|] eqn:A; [|discriminate]. intros E. injection E as <- <-.
    destruct (received _ _ _ _ _ _ R) as (R1 & R2 & R3 & R4). destruct (IH _ _ _ A) as (A1 & A2 & A3 & A4).
    split; [intros F; inversion F; subst; rewrite A1, R1; auto|]. split; [rewrite app_length; cbn [List.length]; lia|].
    split; [apply Forall_app; auto|]. intros F. inversion F; subst. apply Forall_app. auto.
Qed.

(** ** Grouping *)

Lemma conversation_flat rt clock pss : forall m, Forall (fun p => ~ switches p) (List.concat pss) ->
  conversation rt clock m pss = receive_frame rt clock m (List.concat pss).
Proof.
  unfold receive_frame. induction pss as [|ps pss IH]; intros m F; [reflexivity|].
  cbn [List.concat conversation] in *. apply Forall_app in F as [F1 F2]. rewrite receive_all_app. unfold receive_frame.
  destruct (receive_all rt clock m ps) as [[m1 l1]|] eqn:E1; [|reflexivity]. rewrite (IH m1 F2).
  destruct (receive_all rt clock m1 (List.concat pss)) as [[m2 l2]|] eqn:E2; [|reflexivity].
  destruct (received_all _ _ _ _ _ _ E1) as (N1 & _), (received_all _ _ _ _ _ _ E2) as (N2 & _).
  rewrite (N2 F2), map_app. reflexivity.
Qed.

(** ** Sizes of frames *)

Lemma frame_size p k : List.length p <= k -> List.length (frame_bytes p) <= k + (if Nat.leb k 256 then 3 else 5).
Proof.
  intros L. unfold frame_bytes. destruct p as [|b p]; [cbn; lia|]. cbv zeta. cbn [List.length] in L.
  destruct (len (b :: p) <=? 256)%N eqn:E; cbn [List.length app]; rewrite ?app_length; cbn [List.length];
    unfold len in E; cbn [List.length] in E; destruct (Nat.leb k 256) eqn:X; lia.
Qed.

(** ** Frames that take one report *)

Lemma in_one_report defs first f rs :
  Exists (SpecHid.fits 0 (Z.of_nat (List.length f))) defs -> segments defs first f rs ->
  exists d, choice defs 0 (Z.of_nat (List.length f)) d /\ List.length f <= room d
    /\ rs = [mkReport (id_byte d) (if first then x00 else x01) (f ++ repeat x00 (room d - List.length f))].
Proof.
  intros X S. destruct S as [first data d N C L|first chunk rest d rs N C L K S].
  - exists d. auto.
  - exfalso. destruct C as [(a & b & -> & (_ & F) & _)|[F _]].
    + rewrite app_length in F. unfold room in L. destruct rest; [now elim N|]. cbn [List.length] in F. lia.
    + apply Exists_exists in X as (x & I & X). rewrite Forall_forall in F. exact (F x I X).
Qed.

Lemma one_each defs fs outs :
  departs defs fs outs -> Forall (fun f => Exists (SpecHid.fits 0 (Z.of_nat (List.length f))) defs) fs ->
  Forall2 (fun f o => exists d, In d defs /\ o = id_byte d :: x00 :: f ++ repeat x00 (room d - List.length f))
    (filter (fun f => negb (Nat.eqb (List.length f) 0)) fs) outs.
Proof.
  induction 1 as [|fs outs _ IH|f rs fs outs S _ IH]; intros F; [apply Forall2_nil|apply IH; now inversion F|].
  apply Forall_cons_iff in F as [F1 F2]. destruct (in_one_report _ _ _ _ F1 S) as (d & C & _ & ->).
  cbn [filter]. destruct f as [|b f]; [exfalso; exact (segments_nil _ _ _ S)|]. cbn [List.length Nat.eqb negb map app].
  apply Forall2_cons; [|auto]. exists d. split; [|reflexivity].
  destruct C as [(x & y & -> & _)|[_ (x & y & -> & _)]]; apply in_or_app; right; left; reflexivity.
Qed.
