(** Lemmas for C111. *)
From Coq Require Import ZifyBool ZifyNat ZifyN Lia.
From Verif Require Import Base BaseFacts GoTypes Types Payload Lingo Command SpecPayload SpecCommand Handlers SpecHandlers HandlersThms SpecProtocol Packet SpecPacket ProtocolFacts ProtocolThms Hid SpecHid HidThms Server SpecServer SpecWire ServerThms ProtocolProps ProtocolMore
  SpecRetry RetryThms SpecOrder OrderThms SpecRenew.

(** ** A later clock *)

Definition shifted {A} (k : nat) (x : option (memory * A)) : option (memory * A) :=
  match x with None => None | Some (m, a) => Some (shift k m, a) end.

Definition follows_clock (k : nat) (r r' : request) : Prop :=
  fst r = fst r' /\ forall m c, snd r (shift k m) c = shifted k (snd r' m c).

Lemma rows_shift rt clock k : Forall2 (follows_clock k) (requests rt clock) (requests rt (later k clock)).
Proof.
  unfold requests.
  repeat (apply Forall2_cons; [split; [reflexivity|cbn [snd]]|]); [..|apply Forall2_nil]; intros m c; try reflexivity.
  - unfold switch. cbn [extended shift]. destruct (Bool.eqb (extended m) true); reflexivity.
  - unfold switch. cbn [extended shift]. destruct (Bool.eqb (extended m) false); reflexivity.
  - unfold certificate. destruct c as [|a [|b r]]; try reflexivity. destruct (_ <? 2)%N; [reflexivity|].
    destruct r as [|s [|l r]]; try reflexivity. destruct (_ <? _)%N; reflexivity.
  - unfold identification. destruct c as [|n r]; [reflexivity|]. destruct (tokens rt _ r) as [l'| |]; try reflexivity. destruct (forallb _ l'); reflexivity.
  - unfold launch. destruct (Nat.ltb _ _); reflexivity.
  - assert (D : c = [x09] \/ forall clock m, player_state clock m c = match c with [ty] => Some (m, match find (fun s => Byte.eqb ty (fst s)) states with
                     | Some (_, value) => [Answer [x03; x0d] (ty :: value)]
                     | None => []
                     end) | _ => Some (m, []) end).
    { destruct c as [|ty [|]]; [right; reflexivity| |right; intros; unfold player_state; destruct ty; reflexivity]. destruct ty; try (right; reflexivity). now left. }
    destruct D as [->|D].
    + unfold player_state, shifted, shift, later. cbn [numbered extended last_number readings]. rewrite Nat.add_assoc. reflexivity.
    + rewrite !D. destruct c as [|ty [|]]; reflexivity.
  - unfold track_display. destruct c as [|ty c]; [reflexivity|]. destruct ty; reflexivity.
Qed.

#[local] Opaque requests.

Lemma filter_shift k sel rs rs' : Forall2 (follows_clock k) rs rs' ->
  Forall2 (follows_clock k) (filter (fun r : bytes * option nat * reaction => if list_eq_dec Byte.byte_eq_dec sel (fst (fst r)) then true else false) rs)
    (filter (fun r : bytes * option nat * reaction => if list_eq_dec Byte.byte_eq_dec sel (fst (fst r)) then true else false) rs').
Proof.
  induction 1 as [|r r' rs rs' H _ IH]; [apply Forall2_nil|]. cbn [filter]. pose proof (proj1 H) as E. rewrite E.
  destruct (list_eq_dec _ _ _); [now apply Forall2_cons|exact IH].
Qed.

Definition agree (k : nat) (x y : option (option bytes * bytes * reaction)) : Prop :=
  match x, y with
  | None, None => True
  | Some (t, c, f), Some (t', c', f') => t = t' /\ c = c' /\ forall m c, f (shift k m) c = shifted k (f' m c)
  | _, _ => False
  end.

Lemma understand_shift k e rs rs' b : Forall2 (follows_clock k) rs rs' -> agree k (understand e rs b) (understand e rs' b).
Proof.
  intros F. rewrite !understand_eq.
  assert (X : match find (ProtocolThms.fits b) rs, find (ProtocolThms.fits b) rs' with
    | None, None => True | Some r, Some r' => follows_clock k r r' | _, _ => False end).
  { induction F as [|r r' rs rs' H _ IH]; [exact I|]. cbn [find].
    assert (E : ProtocolThms.fits b r = ProtocolThms.fits b r') by (unfold ProtocolThms.fits; rewrite (proj1 H); reflexivity).
    rewrite E. destruct (ProtocolThms.fits b r'); [exact H|exact IH]. }
  assert (Y : match
      match rs with
      | [(_, size, f)] => match take_number e b, size with
            | Some (t, c), None => Some (t, c, f)
            | Some (t, c), Some n => if Nat.ltb (List.length c) n then None else Some (t, firstn n c, f)
            | None, _ => None end
      | _ => None end,
      match rs' with
      | [(_, size, f)] => match take_number e b, size with
            | Some (t, c), None => Some (t, c, f)
            | Some (t, c), Some n => if Nat.ltb (List.length c) n then None else Some (t, firstn n c, f)
            | None, _ => None end
      | _ => None end with
      | None, None => True
      | Some (t, c, f), Some (t', c', f') => t = t' /\ c = c' /\ forall m c, f (shift k m) c = shifted k (f' m c)
      | _, _ => False
      end).
  { destruct F as [|[[id size] f] [[id' size'] f'] rs rs' [E H] F]; [exact I|]. injection E as <- <-.
    destruct F; [|exact I]. destruct (take_number e b) as [[t c]|]; [|exact I]. destruct size as [n|]; [destruct (Nat.ltb _ _); [exact I|]|]; auto. }
  destruct (find (ProtocolThms.fits b) rs) as [[[id [n|]] f]|], (find (ProtocolThms.fits b) rs') as [[[id' [n'|]] f']|]; try contradiction;
    try (destruct (proj1 X); fail); try exact Y; try (apply proj1 in X; discriminate X).
  destruct X as [E H]. injection E as <- <-. destruct (Nat.eqb _ _); cbn [agree]; auto.
Qed.

Lemma received_shift rt clock k m p : receive rt clock (shift k m) p = shifted k (receive rt (later k clock) m p).
Proof.
  destruct (split_id p) as [[pre b]|] eqn:S; [|unfold receive; rewrite S; reflexivity].
  rewrite (receive_react rt clock _ p pre b S), (receive_react rt (later k clock) _ p pre b S).
  pose proof (understand_shift k (switched (numbered m) pre) _ _ b (filter_shift k pre _ _ (rows_shift rt clock k))) as U.
  unfold react. cbn [numbered shift extended last_number readings].
  match type of U with agree _ ?x ?y => destruct x as [[[t c] f]|], y as [[[t' c'] f']|] end; try contradiction; [|reflexivity].
  cbn [agree] in U.
  destruct U as (<- & <- & F). unfold answered.
  specialize (F (mkMemory (switched (numbered m) pre) (extended m) (last_number m) (readings m)) c). unfold shift at 1 in F. cbn [numbered extended last_number readings] in F.
  rewrite F. destruct (f' _ c) as [[m1 l]|]; [|reflexivity]. cbn [shifted]. unfold shift at 1. cbn [last_number].
  destruct (with_numbers t (last_number m1) l). reflexivity.
Qed.

Lemma frame_shift rt clock k ps m : receive_frame rt clock (shift k m) ps = shifted k (receive_frame rt (later k clock) m ps).
Proof.
  assert (A : forall m, receive_all rt clock (shift k m) ps = shifted k (receive_all rt (later k clock) m ps)).
  { clear m. induction ps as [|p ps IH]; intros m; [reflexivity|]. cbn [receive_all]. rewrite received_shift.
    destruct (receive rt (later k clock) m p) as [[m1 l1]|]; [|reflexivity]. cbn [shifted]. rewrite IH.
    destruct (receive_all rt (later k clock) m1 ps) as [[m2 l2]|]; reflexivity. }
  unfold receive_frame. rewrite A. destruct (receive_all rt (later k clock) m ps) as [[m1 l1]|]; reflexivity.
Qed.

Lemma conversation_shift rt clock k pss : forall m, conversation rt clock (shift k m) pss = shifted k (conversation rt (later k clock) m pss).
Proof.
  induction pss as [|ps pss IH]; intros m; [reflexivity|]. cbn [conversation]. rewrite frame_shift.
  destruct (receive_frame rt (later k clock) m ps) as [[m1 l1]|]; [|reflexivity]. cbn [shifted]. rewrite IH.
  destruct (conversation rt (later k clock) m1 pss) as [[m2 l2]|]; reflexivity.
Qed.

(** ** Another count *)

Definition recount (n : N) (m : memory) : memory := mkMemory (numbered m) (extended m) n (readings m).

Definition recounted {A} (n : N) (x : option (memory * A)) : option (memory * A) :=
  match x with None => None | Some (m, a) => Some (recount n m, a) end.

(** A reaction says the same and changes the same whatever the count, or sets the count. *)
Definition uncounting (f : reaction) : Prop :=
  forall n m c, f (recount n m) c = f m c \/ f (recount n m) c = recounted n (f m c).

#[local] Transparent requests.

Lemma rows_uncounting rt clock : Forall (fun r : request => uncounting (snd r)) (requests rt clock).
Proof.
  unfold requests.
  repeat (apply Forall_cons; [cbn [snd]|]); [..|apply Forall_nil]; intros n m c; try (right; reflexivity).
  - right. unfold switch. cbn [extended recount]. destruct (Bool.eqb (extended m) true); reflexivity.
  - right. unfold switch. cbn [extended recount]. destruct (Bool.eqb (extended m) false); reflexivity.
  - right. unfold certificate. destruct c as [|a [|b r]]; try reflexivity. destruct (_ <? 2)%N; [reflexivity|].
    destruct r as [|s [|l r]]; try reflexivity. destruct (_ <? _)%N; reflexivity.
  - left. reflexivity.
  - right. unfold identification. destruct c as [|k r]; [reflexivity|]. destruct (tokens rt _ r) as [l'| |]; try reflexivity. destruct (forallb _ l'); reflexivity.
  - right. unfold launch. destruct (Nat.ltb _ _); reflexivity.
  - right. unfold player_state. destruct c as [|ty [|]]; try reflexivity; destruct ty; reflexivity.
  - right. unfold track_display. destruct c as [|ty c]; [reflexivity|]. destruct ty; reflexivity.
Qed.

Lemma started_row rt clock : exists id,
  filter (fun r : bytes * option nat * reaction => if list_eq_dec Byte.byte_eq_dec [x00; x38] (fst (fst r)) then true else false) (requests rt clock)
  = [(id, Some 0, start_identification)].
Proof. eexists. reflexivity. Qed.

#[local] Opaque requests.

(** Memories that cannot be told apart as long as no numbers are used. *)
Definition alike (m m' : memory) : Prop := m' = m \/ numbered m = false /\ exists n, m' = recount n m.

Definition looks (m : memory) (l : list reply) : list bytes := map (fun r => reply_bytes (numbered m) r) l.

Lemma plain_replies t l : forall n n',
  map (reply_bytes false) (snd (with_numbers t n l)) = map (reply_bytes false) (snd (with_numbers t n' l)).
Proof.
  induction l as [|s l IH]; intros n n'; [reflexivity|].
  destruct s as [id c| |id c]; cbn [with_numbers].
  - specialize (IH n n'). destruct (with_numbers t n l), (with_numbers t n' l). cbn [snd map] in *. now rewrite IH.
  - specialize (IH n n'). destruct (with_numbers t n l), (with_numbers t n' l). cbn [snd map] in *. now rewrite IH.
  - specialize (IH (next_number n) (next_number n')). destruct (with_numbers t (next_number n) l), (with_numbers t (next_number n') l). cbn [snd map] in *.
    rewrite IH. reflexivity.
Qed.

Lemma not_started p pre b : split_id p = Some (pre, b) -> ~ is_start p -> switched false pre = false.
Proof.
  intros S N. apply split_parts in S. subst p. unfold switched.
  destruct pre as [|a [|c [|d pre]]]; try reflexivity; try (destruct a; reflexivity); destruct a; try reflexivity; destruct c; try reflexivity.
  exfalso. apply N. exists b. reflexivity.
Qed.

(** A packet that does not start identification, without numbers. *)
Lemma received_plain rt clock n m p : numbered m = false -> ~ is_start p ->
  match receive rt clock m p, receive rt clock (recount n m) p with
  | None, None => True
  | Some (m1, l1), Some (m2, l2) => numbered m1 = false /\ (exists n', m2 = recount n' m1) /\ map (reply_bytes false) l1 = map (reply_bytes false) l2
  | _, _ => False
  end.
Proof.
  intros M ST. destruct (split_id p) as [[pre b]|] eqn:S.
  2:{ unfold receive. rewrite S. split; [exact M|]. split; [eexists; reflexivity|reflexivity]. }
  rewrite !(receive_react rt clock _ p pre b S). pose proof (rows_uncounting rt clock) as R. pose proof (rows_mode rt clock) as T.
  revert R T. generalize (requests rt clock). intros rows R T. cbn [numbered recount]. rewrite M, (not_started p pre b S ST).
  unfold react. cbn [numbered extended last_number readings recount].
  destruct (understand false _ b) as [[[t c] f]|] eqn:U.
  2:{ split; [reflexivity|]. split; [eexists; reflexivity|reflexivity]. }
  apply understood_row in U as (id & size & IN). apply filter_In in IN as [IN _]. rewrite Forall_forall in R, T.
  specialize (R _ IN n (mkMemory false (extended m) (last_number m) (readings m)) c). specialize (T _ IN). cbn [snd] in R, T. unfold recount in R; cbn [numbered extended last_number readings] in R.
  unfold answered.
  match type of R with ?x = ?y \/ _ => assert (E : match y with None => x = None | Some (m1, l) => numbered m1 = false /\ exists n', x = Some (recount n' m1, l) end) end.
  { destruct (f (mkMemory false (extended m) (last_number m) (readings m)) c) as [[m1 l]|] eqn:F.
    - split; [exact (T _ _ _ _ F)|]. destruct R as [-> | ->]; [exists (last_number m1); destruct m1; reflexivity|exists n; reflexivity].
    - destruct R as [-> | ->]; reflexivity. }
  destruct (f (mkMemory false (extended m) (last_number m) (readings m)) c) as [[m1 l]|].
  - destruct E as [N (n' & ->)]. cbn [last_number recount]. pose proof (plain_replies t l (last_number m1) n') as P.
    destruct (with_numbers t (last_number m1) l) as [a la], (with_numbers t n' l) as [a' la']. cbn [snd] in P.
    split; [exact N|]. split; [exists a'; reflexivity|exact P].
  - rewrite E. exact I.
Qed.

(** The first packet starts identification properly. *)
Lemma received_start rt clock n m b : List.length b <> 1 ->
  receive rt clock (recount n m) (x00 :: x38 :: b) = receive rt clock m (x00 :: x38 :: b).
Proof.
  intros L. assert (S : split_id (x00 :: x38 :: b) = Some ([x00; x38], b)) by reflexivity.
  rewrite !(receive_react rt clock _ _ _ _ S). destruct (started_row rt clock) as (id & E). unfold react.
  cbn [numbered recount extended last_number readings]. rewrite E. unfold switched.
  destruct (understand true _ b) as [[[t c] f]|] eqn:U.
  - apply understood_row in U as (i & s & [X|[]]). injection X as _ _ <-. reflexivity.
  - exfalso. rewrite understand_eq in U. unfold find, ProtocolThms.fits, size_fits in U. cbn [fst snd] in U.
    destruct b as [|x [|y b]]; try discriminate U; [now apply L|]. destruct b; discriminate U.
Qed.

Lemma frame_alike rt clock m m' ps : alike m m' -> orderly ps ->
  match receive_frame rt clock m ps, receive_frame rt clock m' ps with
  | None, None => True
  | Some (m1, f1), Some (m2, f2) => alike m1 m2 /\ f1 = f2
  | _, _ => False
  end.
Proof.
  intros [-> |[M (n & ->)]] O.
  { destruct (receive_frame rt clock m ps) as [[m1 f1]|]; [|exact I]. split; [now left|reflexivity]. }
  assert (A : forall ps n m, numbered m = false -> Forall (fun q => ~ is_start q) ps ->
    match receive_all rt clock m ps, receive_all rt clock (recount n m) ps with
    | None, None => True
    | Some (m1, l1), Some (m2, l2) => numbered m1 = false /\ (exists n', m2 = recount n' m1) /\ map (reply_bytes false) l1 = map (reply_bytes false) l2
    | _, _ => False
    end).
  { clear. induction ps as [|p ps IH]; intros n m M F; cbn [receive_all].
    - split; [exact M|]. split; [eexists; reflexivity|reflexivity].
    - inversion F as [|? ? P F']; subst. pose proof (received_plain rt clock n m p M P) as R.
      destruct (receive rt clock m p) as [[m1 l1]|], (receive rt clock (recount n m) p) as [[m2 l2]|]; try contradiction; [|exact I].
      destruct R as (M1 & (n' & ->) & E). specialize (IH n' m1 M1 F').
      destruct (receive_all rt clock m1 ps) as [[m3 l3]|], (receive_all rt clock (recount n' m1) ps) as [[m4 l4]|]; try contradiction; [|exact I].
      destruct IH as (M3 & X & E'). split; [exact M3|]. split; [exact X|]. now rewrite !map_app, E, E'. }
  assert (B : match receive_all rt clock m ps, receive_all rt clock (recount n m) ps with
    | None, None => True
    | Some (m1, l1), Some (m2, l2) => alike m1 m2 /\ looks m1 l1 = looks m2 l2
    | _, _ => False
    end).
  { assert (C : forall ps, Forall (fun q => ~ is_start q) ps -> match receive_all rt clock m ps, receive_all rt clock (recount n m) ps with
    | None, None => True
    | Some (m1, l1), Some (m2, l2) => alike m1 m2 /\ looks m1 l1 = looks m2 l2
    | _, _ => False
    end).
    { intros qs F. specialize (A qs n m M F). destruct (receive_all rt clock m qs) as [[m1 l1]|], (receive_all rt clock (recount n m) qs) as [[m2 l2]|]; try contradiction; [|exact I].
      destruct A as (M1 & (n' & ->) & E). split; [right; eauto|]. unfold looks. cbn [numbered recount]. rewrite M1. exact E. }
    destruct ps as [|p ps]; [apply C, Forall_nil|]. destruct O as [O1 O2].
    assert (D : (exists b, p = x00 :: x38 :: b) \/ ~ is_start p).
    { destruct p as [|x [|y b]]; try (right; intros (? & X); discriminate X).
      destruct (Byte.byte_eq_dec x x00) as [-> |N]; [|right; intros (? & X); injection X as X _ _; auto].
      destruct (Byte.byte_eq_dec y x38) as [-> |N]; [left; eauto|right; intros (? & X); injection X as X _; auto]. }
    destruct D as [(b & ->)|D]; [|apply C; now apply Forall_cons].
    cbn [receive_all]. rewrite received_start by (intros L; destruct b as [|x [|]]; try discriminate L; exact (O1 x eq_refl)).
    destruct (receive rt clock m (x00 :: x38 :: b)) as [[m1 l1]|]; [|exact I].
    destruct (receive_all rt clock m1 ps) as [[m2 l2]|]; [|exact I]. split; [now left|reflexivity]. }
  unfold receive_frame. destruct (receive_all rt clock m ps) as [[m1 l1]|], (receive_all rt clock (recount n m) ps) as [[m2 l2]|]; try contradiction; [|exact I].
  destruct B as [B1 B2]. split; [exact B1|]. unfold looks in B2.
  rewrite <- (map_map (reply_bytes (numbered m1)) frame_bytes), <- (map_map (reply_bytes (numbered m2)) frame_bytes). now f_equal.
Qed.

Lemma conversation_alike rt clock pss : Forall orderly pss -> forall m m', alike m m' ->
  match conversation rt clock m pss, conversation rt clock m' pss with
  | None, None => True
  | Some (m1, f1), Some (m2, f2) => alike m1 m2 /\ f1 = f2
  | _, _ => False
  end.
Proof.
  induction 1 as [|ps pss O _ IH]; intros m m' A; cbn [conversation]; [auto|].
  pose proof (frame_alike rt clock m m' ps A O) as F.
  destruct (receive_frame rt clock m ps) as [[m1 f1]|], (receive_frame rt clock m' ps) as [[m2 f2]|]; try contradiction; [|exact I].
  destruct F as [A1 ->]. specialize (IH m1 m2 A1).
  destruct (conversation rt clock m1 pss) as [[m3 f3]|], (conversation rt clock m2 pss) as [[m4 f4]|]; try contradiction; [|exact I].
  destruct IH as [A2 ->]. auto.
Qed.

(** ** The two frames of a new start *)

#[local] Transparent requests.

Lemma renew_frames rt clock m t t' : List.length t = 2 -> List.length t' = 2 ->
  conversation rt clock m [[start t]; [leave t']]
  = Some (mkMemory true false 0 (readings m), start_frames t ++ leave_frames (extended m) t').
Proof.
  intros T T'. destruct t as [|a [|b [|]]]; try discriminate T. destruct t' as [|a' [|b' [|]]]; try discriminate T'.
  destruct m as [e [|] n k]; reflexivity.
Qed.

Lemma plain_frames rt clock m c d : List.length c = 8 -> List.length d = 4 ->
  exists n, conversation rt clock m [[identify_lingoes c d]; [[x00; x06]]]
  = Some (mkMemory false false n (readings m), map frame_bytes (ok [] x13 :: asked d) ++ leave_frames (extended m) []).
Proof.
  intros C D. do 9 (destruct c as [|? c]; try discriminate C). do 5 (destruct d as [|? d]; try discriminate D).
  exists (last_number m). set (d := [b7; b8; b9; b10]). set (c := [b; b0; b1; b2; b3; b4; b5; b6]).
  assert (R : receive rt clock m (identify_lingoes c d)
    = let '(n, l) := with_numbers None (last_number m) (ack0 x00 x13 :: if forallb (Byte.eqb x00) d then [] else [Answer [x00; x14] []]) in
      Some (mkMemory false (extended m) n (readings m), l)) by (destruct m; reflexivity).
  cbn [conversation]. unfold receive_frame. cbn [receive_all]. rewrite R. unfold asked.
  destruct (forallb (Byte.eqb x00) d); destruct m as [e [|] n k]; reflexivity.
Qed.

(** ** A joined input *)

Lemma frame_join defs a b f : Exists SpecHid.starts b -> frame_of defs b f -> frame_of defs (a ++ b) f.
Proof.
  intros X [before r after cs -> S N C ->|cs N _ _].
  - apply frame_started with (a ++ before) r after cs; auto. now rewrite app_assoc.
  - exfalso. apply Exists_exists in X as (r & I & S). rewrite Forall_forall in N. exact (N _ I S).
Qed.

Lemma pending_join defs a b : pending defs a -> pending defs b -> pending defs (a ++ b).
Proof. intros [A1 A2] [B1 B2]. split; apply Forall_app; auto. Qed.

(** Input that has not ended, then a proper accessory whose first frame has a starting report. *)
Lemma arrives_join defs spares rs ps rss pss :
  sends defs rs ps -> Forall2 (sends defs) rss pss -> Exists SpecHid.starts rs ->
  forall n old pss1, arrives defs spares n old pss1 -> Forall (fun x => ReadReport x <> inr EOF) old ->
  arrives defs spares n (old ++ map (fun r => (report_bytes r, None)) (List.concat (rs :: rss))) (pss1 ++ ps :: pss).
Proof.
  intros (pre & last & f & -> & P & LV & E & L & F & S) SS X n old pss1 A.
  induction A as [n reads rs0 M P0|n taken rest rs0 M P0|n taken rest rs0 x pss1 M P0 X0 A IH|n taken rest rs0 last0 f0 ps0 pss1 M P0 LV0 E0 F0 H0 A IH]; intros NE.
  - cbn [List.concat app]. rewrite map_app, app_assoc. eapply (arrives_frame defs spares n _ _ (rs0 ++ pre) last).
    + rewrite (map_app ReadReport), M, (sent_reports _ L). now rewrite <- map_app, app_assoc.
    + now apply pending_join.
    + exact LV.
    + exact E.
    + rewrite <- app_assoc. apply frame_join; [exact X|exact F].
    + now apply stream_holds.
    + now apply sent_arrives.
  - exfalso. apply Forall_app in NE as [NE _]. assert (I : In (inr EOF) (map ReadReport taken)) by (rewrite M; apply in_or_app; right; now left).
    apply in_map_iff in I as (y & Y & I). rewrite Forall_forall in NE. exact (NE _ I Y).
  - apply Forall_app in NE as [_ NE]. rewrite <- app_assoc. eapply arrives_error; [exact M|exact P0|exact X0|exact (IH NE)].
  - apply Forall_app in NE as [_ NE]. rewrite <- app_assoc. cbn [app]. eapply arrives_frame; [exact M|exact P0|exact LV0|exact E0|exact F0|exact H0|exact (IH NE)].
Qed.

Lemma wire_panics defs : forall fuel buf l o, List.length l < fuel ->
  ReadFrame_loop defs buf (map ReadReport l) = Panic -> ReadFrame_dev fuel defs wire_read buf (l, o) = Some Panic.
Proof.
  induction fuel as [|fuel IH]; intros buf l o L; [lia|]. cbn [ReadFrame_dev].
  destruct l as [|x l]; cbn [map ReadFrame_loop wire_read fst snd io_bind done]; [discriminate|]. cbn [List.length] in L.
  destruct (ReadReport x) as [rep|e]; [|discriminate].
  destruct (Find defs (Z.of_N (b2n (rep_ID rep)))) as [def|e]; [|discriminate].
  cbv zeta. destruct (Z.min _ _ <? 0)%Z; [reflexivity|].
  destruct (b2n (rep_LinkControl rep) =? LinkControlDone)%N; [discriminate|].
  destruct (b2n (rep_LinkControl rep) =? LinkControlMoreToFollow)%N; [apply IH; lia|].
  destruct (b2n (rep_LinkControl rep) =? N.lor LinkControlContinue LinkControlMoreToFollow)%N; [apply IH; lia|].
  destruct (b2n (rep_LinkControl rep) =? LinkControlContinue)%N; [discriminate|apply IH; lia].
Qed.

(** Any input on which the server does not crash is one of frames. *)
Lemma wire_arrives rt clock defs spares fuel2 : usable defs ->
  forall fuel n reads o st r, sound st -> List.length reads < fuel2 ->
  processFrames_loop fuel rt std_registry clock DevGeneral_device
    (hid_transport fuel2 defs spares wire_read wire_write) st ((reads, o), n) = done r ->
  exists pss, arrives defs spares n reads pss.
Proof.
  intros U. induction fuel as [|fuel IH]; intros n reads o st r SO L E; [discriminate E|]. cbn [processFrames_loop] in E.
  destruct (input_cases defs (map ReadReport reads)) as [pre last rest' M LP NE EL|pre x rest' M LP NE X|pre M LP NE|pre r' d' rest' M LP NE K Z'].
  - apply map_eq_app in M as (taken & rest & -> & M & <-). 
    destruct (read_frame defs [] pre last (map ReadReport rest) LP NE EL) as (f & FO & R). rewrite <- M, <- map_app in R.
    apply (wire_frame defs fuel2 _ _ o) in R; [|exact L]. rewrite (wire_transport _ _ spares _ _ _ _ n R) in E. cbn [io_bind done] in E.
    destruct (process_frame_run rt clock (hid_transport fuel2 defs spares wire_read wire_write) st (rest, o, Datatypes.S n)
                  (mkSlice f (spares n)) SO) as [(fs & st1 & A & S1 & Er)|[_ Er]]; rewrite Er in E; [|discriminate E].
    destruct (wire_fed defs fuel2 spares fs U rest o (Datatypes.S n)) as (o1 & D1 & Fd). rewrite Fd in E. cbn [io_bind done] in E.
    rewrite app_length in L. assert (L' : List.length rest < fuel2) by lia. destruct (IH _ _ _ _ _ S1 L' E) as (pss & AR). destruct A as (ps & cs & evs & H & _).
    apply Forall_app in LP as [LP LL]. inversion LL; subst. exists (ps :: pss). eapply arrives_frame; eauto. split; assumption.
  - apply map_eq_app in M as (taken0 & rest0 & -> & M & M0). destruct rest0 as [|y rest]; [discriminate M0|]. cbn [map] in M0. injection M0 as MX <-.
    assert (M1 : map ReadReport (taken0 ++ [y]) = map inl pre ++ [x]) by (rewrite map_app, M; cbn [map]; now rewrite MX).
    assert (Y : taken0 ++ y :: rest = (taken0 ++ [y]) ++ rest) by now rewrite <- app_assoc. rewrite Y in *.
    assert (XE : x = inr EOF \/ match x with inr e => e <> EOF | inl r => unknown defs r end).
    { destruct x as [r0|[]]; auto; right; discriminate. }
    destruct XE as [-> |XE]; [exists []; eapply arrives_eof; [exact M1|split; assumption]|].
    assert (R : exists e, e <> EOF /\ exists b, ReadFrame defs [] (map ReadReport ((taken0 ++ [y]) ++ rest)) = Ret (map ReadReport rest, b, inr e)).
    { exists (match x with inr e => e | inl _ => errReportID end). split; [destruct x; [discriminate|exact XE]|].
      apply ReadFrame_err_iff. exists pre. split; [assumption|]. split; [assumption|].
      rewrite map_app, M1, <- app_assoc. destruct x as [r0|e]; [right; left; exists r0; auto|left; reflexivity]. }
    destruct R as (e & N & b & R). apply (wire_frame defs fuel2 _ _ o) in R; [|exact L].
    rewrite (wire_transport _ _ spares _ _ _ _ n R) in E. cbn [io_bind done] in E.
    assert (exists pss, arrives defs spares (Datatypes.S n) rest pss) as (pss & AR).
    { rewrite app_length in L. assert (L' : List.length rest < fuel2) by lia. destruct e; [now elim N|exact (IH _ _ _ _ _ SO L' E)..]. }
    exists pss. eapply arrives_error; [exact M1|split; assumption|exact XE|exact AR].
  - exists []. apply arrives_end with pre; [exact M|split; assumption].
  - exfalso. pose proof (read_panics defs rest' pre [] r' d' LP NE K Z') as P. rewrite <- M in P.
    cbn [hid_transport tp_ReadFrame fst snd] in E. rewrite (wire_panics defs fuel2 [] reads o L P) in E. discriminate E.
Qed.

(** What comes before some point of an input. *)
Lemma arrives_prefix defs spares n reads pss : arrives defs spares n reads pss ->
  forall old new, reads = old ++ new -> exists pss1, arrives defs spares n old pss1.
Proof.
  assert (B : forall n old l rs x, l <> [] -> map ReadReport (old ++ l) = map inl rs ++ [x] -> pending defs rs -> exists pss1, arrives defs spares n old pss1).
  { intros n0 old l rs x NE M P. destruct (exists_last NE) as (l0 & y & ->). rewrite app_assoc, map_app in M. apply app_inj_tail in M as [M _].
    rewrite map_app in M. symmetry in M. apply map_eq_app in M as (r1 & r2 & -> & M & _). exists []. apply arrives_end with r1; [now symmetry|].
    destruct P as [P1 P2]. apply Forall_app in P1 as [P1 _], P2 as [P2 _]. split; assumption. }
  induction 1 as [n reads rs M P|n taken rest rs M P|n taken rest rs x pss M P X A IH|n taken rest rs last f ps pss M P LV E F H A IH]; intros old new EQ.
  - subst reads. rewrite map_app in M. symmetry in M. apply map_eq_app in M as (r1 & r2 & -> & M & _). exists []. apply arrives_end with r1; [now symmetry|].
    destruct P as [P1 P2]. apply Forall_app in P1 as [P1 _], P2 as [P2 _]. split; assumption.
  - destruct (app_eq_app _ _ _ _ EQ) as (l & [[T _]|[-> _]]).
    + destruct l as [|y l]; [|rewrite T in M; exact (B _ _ (y :: l) _ _ ltac:(discriminate) M P)]. rewrite app_nil_r in T. subst old.
      exists []. rewrite <- (app_nil_r taken). eapply arrives_eof; eauto.
    + exists []. eapply arrives_eof; eauto.
  - destruct (app_eq_app _ _ _ _ EQ) as (l & [[T N]|[-> R]]).
    + destruct l as [|y l]; [|rewrite T in M; exact (B _ _ (y :: l) _ _ ltac:(discriminate) M P)]. rewrite app_nil_r in T. subst old.
      destruct (IH [] rest eq_refl) as (pss1 & A1). exists pss1. rewrite <- (app_nil_r taken). eapply arrives_error; eauto.
    + destruct (IH _ _ R) as (pss1 & A1). exists pss1. eapply arrives_error; eauto.
  - assert (M' : map ReadReport taken = map inl rs ++ [inl last]) by (rewrite M, map_app; reflexivity).
    destruct (app_eq_app _ _ _ _ EQ) as (l & [[T N]|[-> R]]).
    + destruct l as [|y l]; [|rewrite T in M'; exact (B _ _ (y :: l) _ _ ltac:(discriminate) M' P)]. rewrite app_nil_r in T. subst old.
      destruct (IH [] rest eq_refl) as (pss1 & A1). exists (ps :: pss1). rewrite <- (app_nil_r taken). eapply arrives_frame; eauto.
    + destruct (IH _ _ R) as (pss1 & A1). exists (ps :: pss1). eapply arrives_frame; eauto.
Qed.

(** ** Conversations with a new start *)

Lemma fresh_shift m : forall e n, mkMemory e false n (readings m) = shift (readings m) (mkMemory e false n 0).
Proof. intros e n. unfold shift. cbn. now rewrite Nat.add_0_r. Qed.

Lemma conversation_renewed rt clock m t t' pss : List.length t = 2 -> List.length t' = 2 ->
  let k := readings m in
  match conversation rt (later k clock) (mkMemory true false 0 0) pss with
  | None => conversation rt clock m ([start t] :: [leave t'] :: pss) = None
            /\ conversation rt (later k clock) SpecWire.fresh ([start t] :: [leave t'] :: pss) = None
  | Some (m2, fs) =>
      conversation rt clock m ([start t] :: [leave t'] :: pss) = Some (shift k m2, start_frames t ++ leave_frames (extended m) t' ++ fs)
      /\ conversation rt (later k clock) SpecWire.fresh ([start t] :: [leave t'] :: pss) = Some (m2, start_frames t ++ leave_frames false t' ++ fs)
  end.
Proof.
  intros T T' k. change ([start t] :: [leave t'] :: pss) with ([[start t]; [leave t']] ++ pss).
  rewrite !conversation_app, !renew_frames by assumption. cbn [readings SpecWire.fresh extended]. rewrite (fresh_shift m). fold k. rewrite conversation_shift.
  destruct (conversation rt (later k clock) (mkMemory true false 0 0) pss) as [[m2 fs]|]; cbn [shifted]; [rewrite <- !app_assoc|]; auto.
Qed.

Lemma conversation_plain rt clock m c d pss : List.length c = 8 -> List.length d = 4 -> Forall orderly pss ->
  let k := readings m in
  let pss' := [identify_lingoes c d] :: [[x00; x06]] :: pss in
  (conversation rt clock m pss' = None /\ conversation rt (later k clock) SpecWire.fresh pss' = None)
  \/ exists m1 m2 fs,
       conversation rt clock m pss' = Some (m1, map frame_bytes (ok [] x13 :: asked d) ++ leave_frames (extended m) [] ++ fs)
       /\ conversation rt (later k clock) SpecWire.fresh pss' = Some (m2, map frame_bytes (ok [] x13 :: asked d) ++ leave_frames false [] ++ fs)
       /\ same_but k m2 m1.
Proof.
  intros C D O k pss'. unfold pss'. change ([identify_lingoes c d] :: [[x00; x06]] :: pss) with ([[identify_lingoes c d]; [[x00; x06]]] ++ pss).
  rewrite !conversation_app. destruct (plain_frames rt clock m c d C D) as (n & ->).
  destruct (plain_frames rt (later k clock) SpecWire.fresh c d C D) as (n0 & ->). cbn [readings SpecWire.fresh extended].
  rewrite (fresh_shift m). fold k. rewrite conversation_shift.
  pose proof (conversation_alike rt (later k clock) pss O (mkMemory false false n0 0) (mkMemory false false n 0)
    (or_intror (conj eq_refl (ex_intro _ n eq_refl)))) as A.
  destruct (conversation rt (later k clock) (mkMemory false false n0 0) pss) as [[m2 f2]|],
    (conversation rt (later k clock) (mkMemory false false n 0) pss) as [[m1 f1]|]; try contradiction; cbn [shifted]; [|left; auto].
  destruct A as [A ->]. right. exists (shift k m1), m2, f1. rewrite <- !app_assoc. split; [reflexivity|]. split; [reflexivity|].
  destruct A as [-> |[N (n' & ->)]]; (split; [reflexivity|]; split; [reflexivity|]; split; [reflexivity|]); [reflexivity|]. rewrite N. discriminate.
Qed.
