(** Statements about commands in the vocabulary of SpecCommand. *)
From Coq Require Import ZifyBool ZifyNat ZifyN Permutation Sorted Ascii.
From Verif Require Import Base BaseFacts GoTypes GoTypesFacts Types Payload Lingo Command SpecPayload
  PayloadFacts WireFacts SpecText TextFacts SpecCommand LingoFacts CommandFacts CommandThms.
Ltac Zify.zify_post_hook ::= Z.div_mod_to_equations.
#[local] Opaque std_registry.

Lemma wire_trx_bytes e tr :
  wire_trx e tr = match e, tr with true, Some t => trx_bytes t | _, _ => [] end.
Proof. unfold wire_trx. now destruct tr, e. Qed.

Lemma payload_bytes_wire rt p b : wire_specified rt p -> payload_bytes rt p b -> payload_wire p b.
Proof.
  intros [Hs | [[l ->] | (t & vs & n & -> & Hn & Ht)]] [Hm | [Hm Hb]].
  - eapply payload_wire_enc; eauto.
  - destruct (sendable_roundtrip _ _ Hs) as (? & ? & _ & _ & E & _). congruence.
  - discriminate.
  - injection Hb as <-. constructor.
  - rewrite (fixed_no_marshaler _ _ _ _ Hn) in Hm. discriminate.
  - cbn [payload_binary_write] in Hb. rewrite (binary_write_fixed _ _ _ Hn) in Hb. injection Hb as <-.
    eapply pw_fixed; [exact Hn|]. eapply struct_wire_enc; eauto.
Qed.

Lemma marshal_wire rt e id tr p e' b :
  (id < 2 ^ 24)%N -> wire_specified rt p ->
  MarshalCmd rt e (mkCmd id tr (Some p)) = Ret (e', Ok b) ->
  e' = mode_after e [id]
  /\ exists pb, payload_wire p pb
       /\ b = id_prefix id ++ match e', tr with true, Some t => trx_bytes t | _, _ => [] end ++ pb.
Proof.
  intros Hid Hp H. apply MarshalCmd_ok in H as (p' & pb & E & Hb & He & ->). cbn [cmd_payload cmd_id cmd_trx] in *.
  injection E as <-. split; [exact He|]. exists pb. split; [eapply payload_bytes_wire; eauto|].
  rewrite marshal_id_prefix by exact Hid. now rewrite wire_trx_bytes.
Qed.

Lemma marshal_shape rt e id tr p e' b :
  (id < 2 ^ 24)%N ->
  MarshalCmd rt e (mkCmd id tr (Some p)) = Ret (e', Ok b) ->
  exists pb, payload_bytes rt p pb
    /\ b = id_prefix id ++ match mode_after e [id], tr with true, Some t => trx_bytes t | _, _ => [] end ++ pb.
Proof.
  intros Hid H. apply MarshalCmd_ok in H as (p' & pb & E & Hb & He & ->). cbn [cmd_payload cmd_id cmd_trx] in *.
  injection E as <-. exists pb. split; [exact Hb|].
  rewrite marshal_id_prefix by exact Hid. now rewrite wire_trx_bytes, He.
Qed.

(** ** Ids *)

Lemma New_inj l c l' c' :
  (l < 256)%N -> (c < 65536)%N -> (l' < 256)%N -> (c' < 65536)%N ->
  NewLingoCmdID l c = NewLingoCmdID l' c' -> l = l' /\ c = c'.
Proof.
  intros Hl Hc Hl' Hc' E. rewrite !NewLingoCmdID_eq in E by auto. lia.
Qed.

Lemma truncated_id l c :
  (l < 256)%N -> (c < 65536)%N -> l <> 4%N ->
  marshalLingoCmdID (NewLingoCmdID l c) = [n2b l; n2b (c mod 256)]
  /\ forall rest, unmarshalLingoCmdID (marshalLingoCmdID (NewLingoCmdID l c) ++ rest)
                  = (Ok (NewLingoCmdID l (c mod 256)), rest).
Proof.
  intros Hl Hc H4.
  assert (E : marshalLingoCmdID (NewLingoCmdID l c) = [n2b l; n2b (c mod 256)]).
  { rewrite NewLingoCmdID_eq, marshal_id_prefix by lia. unfold id_prefix.
    replace ((l * 65536 + c) / 65536)%N with l by lia. destruct (N.eqb_spec l 4); [lia|].
    f_equal. f_equal. apply n2b_eq. lia. }
  split; [exact E|]. intros rest. rewrite E.
  assert (E2 : marshalLingoCmdID (NewLingoCmdID l (c mod 256)) = [n2b l; n2b (c mod 256)]).
  { rewrite NewLingoCmdID_eq, marshal_id_prefix by lia. unfold id_prefix.
    replace ((l * 65536 + c mod 256) / 65536)%N with l by lia. destruct (N.eqb_spec l 4); [lia|].
    f_equal. f_equal. apply n2b_eq. lia. }
  rewrite <- E2. apply id_roundtrip. unfold wire_id. rewrite NewLingoCmdID_eq by lia. lia.
Qed.

Lemma short_packet rt reg e pkt :
  (pkt = [] \/ List.length pkt = 1 \/ exists c, pkt = [x04; c]) ->
  exists x, UnmarshalCmd rt reg e pkt = Ret (e, mkCmd 0 None None, Some x).
Proof.
  intros H. assert (P : packet_id pkt = None).
  { destruct H as [-> | [H | [c ->]]]; try reflexivity. destruct pkt as [|a [|]]; try discriminate. reflexivity. }
  destruct (UnmarshalCmd_short rt reg e pkt P) as (x & E & _). eauto.
Qed.

(** ** Modes *)

Lemma mode_last e ids pre id m post :
  ids = pre ++ id :: post -> controls id = Some m -> Forall (fun i => controls i = None) post ->
  mode_after e ids = m.
Proof.
  intros -> Hm Hp. rewrite mode_after_app. cbn [mode_after]. rewrite Hm.
  generalize m. clear - Hp. induction Hp as [|i l Hi _ IH]; intros m; [reflexivity|].
  cbn [mode_after]. now rewrite Hi.
Qed.

Lemma mode_none e ids : Forall (fun i => controls i = None) ids -> mode_after e ids = e.
Proof. induction 1 as [|i l Hi _ IH]; [reflexivity|]. cbn [mode_after]. now rewrite Hi. Qed.

(** ** Long bodies *)

Lemma long_body rt reg e pkt id t n :
  packet_id pkt = Some id -> types_of reg id = [t] -> fixed_size t n ->
  let e' := mode_after e [id] in
  let body := packet_body pkt in
  List.length body <> n -> List.length body <> n + 2 -> n + (if e' then 2 else 0) <= List.length body ->
  exists pre front tail vs,
    body = pre ++ front ++ tail
    /\ List.length pre = (if e' then 2 else 0) /\ struct_reads (layout t) vs front
    /\ UnmarshalCmd rt reg e pkt
       = Ret (e', mkCmd id (if e' then Some (number pre) else None) (Some (Pst t vs)), None).
Proof.
  intros P E Hn e' body H1 H2 H3.
  destruct (fixed_body rt reg e pkt id t n P E Hn) as [_ B]. specialize (B H1 H2 H3). cbv zeta in B.
  fold e' body in B.
  exists (firstn (if e' then 2 else 0) body).
  exists (firstn n (skipn (if e' then 2 else 0) body)).
  exists (skipn n (skipn (if e' then 2 else 0) body)).
  eexists. rewrite !firstn_skipn. split; [reflexivity|]. split.
  - rewrite firstn_length. lia.
  - assert (L : List.length (firstn n (skipn (if e' then 2 else 0) body)) = n).
    { rewrite firstn_length, skipn_length. lia. }
    split; [eapply layout_reads_dec; eauto|]. rewrite B, number_be_dec.
    destruct e'; reflexivity.
Qed.

Lemma short_body rt reg e pkt id t n :
  packet_id pkt = Some id -> types_of reg id = [t] -> fixed_size t n ->
  let e' := mode_after e [id] in
  let body := packet_body pkt in
  List.length body <> n -> List.length body < n + (if e' then 2 else 0) ->
  exists tr x, UnmarshalCmd rt reg e pkt = Ret (e', mkCmd id tr None, Some x).
Proof.
  intros P E Hn e' body H1 H2. destruct (fixed_body rt reg e pkt id t n P E Hn) as [B _].
  apply B; auto. fold e' body. destruct e'; lia.
Qed.

(** ** Registry *)

Lemma parse_uint16_bound s c : parse_uint16 s = Some c -> (c < 65536)%N.
Proof.
  unfold parse_uint16. intros H.
  assert (F : forall hex saw base body,
    match parse_digits base 0 body with
    | Some n => if ((n <=? 65535)%N && underscores_ok hex saw body)%bool then Some n else None
    | None => None
    end = Some c -> (c < 65536)%N).
  { intros hex saw base body E. destruct (parse_digits base 0 body) as [n|]; [|discriminate].
    destruct ((n <=? 65535)%N && underscores_ok hex saw body)%bool eqn:B; [|discriminate].
    injection E as <-. lia. }
  destruct s as [|a s]; [discriminate|].
  repeat match type of H with
         | (if ?b then _ else _) = _ => destruct b
         | match ?x with EmptyString => _ | String _ _ => _ end = _ => destruct x
         end; eauto.
Qed.

(** ** Id tags *)

Local Open Scope string_scope.
Lemma hex_digit_val d c :
  String.get (N.to_nat d) "0123456789abcdef" = Some c \/ String.get (N.to_nat d) "0123456789ABCDEF" = Some c ->
  (d < 16)%N /\ digit_val c = Some d /\ (N_of_ascii c =? 95)%N = false
  /\ forall saw rest, underscores_ok true saw (String c rest) = underscores_ok true 0 rest.
Proof.
  intros H.
  assert (L : (d < 16)%N).
  { destruct (N.lt_ge_cases d 16) as [L|G]; [exact L|exfalso].
    assert (X : forall t, String.length t = 16 -> String.get (N.to_nat d) t = None).
    { intros t Ht. revert G. clear H. intros G.
      assert (16 <= N.to_nat d) by lia. revert H Ht. generalize (N.to_nat d) as k.
      intros k Hk Ht. rewrite <- Ht in Hk. clear Ht G. revert k Hk. induction t as [|a t IH]; intros [|k] Hk; cbn in *; try reflexivity; try lia.
      apply IH. lia. }
    destruct H as [H|H]; rewrite X in H by reflexivity; discriminate. }
  split; [exact L|].
  assert (E : exists k, k < 16 /\ d = N.of_nat k) by (exists (N.to_nat d); lia).
  destruct E as (k & Hk & ->). rewrite Nnat.Nat2N.id in H.
  do 16 (destruct k as [|k]; [destruct H as [H|H]; cbn in H; injection H as <-; repeat split|]). lia.
Qed.

Lemma parse_digits_app b acc s t :
  parse_digits b acc (s ++ t) = match parse_digits b acc s with Some n => parse_digits b n t | None => None end.
Proof.
  revert acc. induction s as [|c s IH]; intros acc; [reflexivity|]. cbn [append parse_digits].
  destruct (N_of_ascii c =? 95)%N; [apply IH|]. destruct (digit_val c) as [d|]; [|reflexivity].
  destruct (d <? b)%N; [apply IH|reflexivity].
Qed.

Lemma hex_number_parse s n : hex_number s n -> parse_digits 16 0 s = Some n.
Proof.
  induction 1 as [|s n c d H IH Hd]; [reflexivity|]. rewrite parse_digits_app, IH. cbn [parse_digits].
  destruct (hex_digit_val d c Hd) as (L & V & U & _). rewrite U, V.
  destruct (N.ltb_spec d 16); [reflexivity|lia].
Qed.

Lemma hex_number_under s n t : hex_number s n -> forall saw, s <> "" \/ saw = 0%N -> underscores_ok true saw (s ++ t) = underscores_ok true 0 t.
Proof.
  intros H. revert t. induction H as [|s n c d H IH Hd]; intros t saw N.
  - destruct N as [N| ->]; [now elim N|reflexivity].
  - assert (A : (s ++ String c "") ++ t = s ++ String c t).
    { clear. induction s as [|a s IH]; [reflexivity|]. cbn [append]. now rewrite IH. }
    rewrite A. destruct (hex_digit_val d c Hd) as (_ & _ & _ & U).
    destruct s as [|a s]; [apply U|]. rewrite IH; [apply U|left; discriminate].
Qed.

Lemma hex_tag_parse tag n : hex_tag tag n -> parse_uint16 tag = if (n <? 65536)%N then Some n else None.
Proof.
  intros (s & -> & N & H). destruct s as [|c s]; [now elim N|]. unfold parse_uint16. cbn [append].
  change (N_of_ascii "0" =? 48)%N with true. cbn match.
  change (lower "x" =? 120)%N with true. cbn match.
  rewrite (hex_number_parse _ _ H).
  pose proof (hex_number_under _ _ "" H 0%N (or_intror eq_refl)) as U.
  assert (E : forall x, x ++ "" = x) by (clear; induction x as [|a x IH]; cbn; congruence).
  rewrite E in U. rewrite U. cbn [underscores_ok]. change (negb (0 =? 1)%N) with true. rewrite Bool.andb_true_r.
  destruct (N.leb_spec n 65535), (N.ltb_spec n 65536); (reflexivity || lia).
Qed.

Lemma digit_val_tag c : tag_char c = false -> digit_val c = None /\ (N_of_ascii c =? 95)%N = false
  /\ (N_of_ascii c =? 48)%N = false /\ (lower c =? 120)%N = false /\ (lower c =? 98)%N = false /\ (lower c =? 111)%N = false.
Proof.
  unfold tag_char, digit_val, lower. intros H.
  destruct ((65 <=? N_of_ascii c)%N && (N_of_ascii c <=? 90)%N)%bool eqn:A.
  - exfalso. lia.
  - destruct ((48 <=? N_of_ascii c)%N && (N_of_ascii c <=? 57)%N)%bool eqn:H1; [exfalso; lia|].
    destruct ((97 <=? N_of_ascii c)%N && (N_of_ascii c <=? 122)%N)%bool eqn:H2; [exfalso; lia|]. repeat split; lia.
Qed.

Lemma parse_digits_bad b s k c : String.get k s = Some c -> tag_char c = false -> forall acc, parse_digits b acc s = None.
Proof.
  intros G T. destruct (digit_val_tag c T) as (D & U & _). revert k G.
  induction s as [|a s IH]; intros [|k] G acc; cbn [String.get] in G; try discriminate; cbn [parse_digits].
  - injection G as ->. now rewrite U, D.
  - destruct (N_of_ascii a =? 95)%N; [eauto|]. destruct (digit_val a); [|reflexivity].
    destruct (_ <? b)%N; [eauto|reflexivity].
Qed.

Lemma bad_tag_parse tag : bad_tag tag -> parse_uint16 tag = None.
Proof.
  intros [ | tag' n H L | tag' k c G T]; [reflexivity| |].
  - rewrite (hex_tag_parse _ _ H). destruct (N.ltb_spec n 65536); [lia|reflexivity].
  - destruct (digit_val_tag c T) as (_ & _ & Z & X & B & O). unfold parse_uint16.
    destruct tag' as [|a s1]; [reflexivity|].
    destruct (N_of_ascii a =? 48)%N eqn:E0; [|now rewrite (parse_digits_bad 10 _ k c G T)].
    destruct k as [|k]; [cbn in G; injection G as ->; congruence|]. cbn [String.get] in G.
    destruct s1 as [|d [|x s2]]; [discriminate|now rewrite (parse_digits_bad 8 _ k c G T)|].
    destruct k as [|k].
    + cbn [String.get] in G. injection G as ->. rewrite X, B, O.
      now rewrite (parse_digits_bad 8 (String c (String x s2)) 0 c eq_refl T).
    + change (String.get k (String x s2) = Some c) in G.
      destruct (lower d =? 120)%N; [now rewrite (parse_digits_bad 16 _ k c G T)|].
      destruct (lower d =? 98)%N; [now rewrite (parse_digits_bad 2 _ k c G T)|].
      destruct (lower d =? 111)%N; [now rewrite (parse_digits_bad 8 _ k c G T)|].
      now rewrite (parse_digits_bad 8 (String d (String x s2)) (S k) c G T).
Qed.

(** A check for [hex_tag]. *)
Definition hexes (s : string) : option N :=
  (fix go (acc : N) (s : string) : option N :=
     match s with
     | EmptyString => Some acc
     | String c s' => match digit_val c with
                      | Some d => if (d <? 16)%N then go (acc * 16 + d)%N s' else None
                      | None => None
                      end
     end) 0%N s.

Lemma some_digit c d : digit_val c = Some d -> (d < 16)%N ->
  String.get (N.to_nat d) "0123456789abcdef" = Some c \/ String.get (N.to_nat d) "0123456789ABCDEF" = Some c.
Proof.
  intros H L. unfold digit_val, lower in H.
  assert (E : c = ascii_of_N (if (d <? 10)%N then 48 + d else 87 + d)%N \/ c = ascii_of_N (55 + d)%N /\ (10 <= d)%N).
  { rewrite <- (ascii_N_embedding c).
    destruct ((65 <=? N_of_ascii c)%N && (N_of_ascii c <=? 90)%N)%bool eqn:U.
    - destruct ((48 <=? N_of_ascii c + 32)%N && (N_of_ascii c + 32 <=? 57)%N)%bool eqn:A; [exfalso; lia|].
      destruct ((97 <=? N_of_ascii c + 32)%N && (N_of_ascii c + 32 <=? 122)%N)%bool eqn:B; [|discriminate].
      injection H as <-. right. split; [f_equal|]; lia.
    - left. f_equal. destruct ((48 <=? N_of_ascii c)%N && (N_of_ascii c <=? 57)%N)%bool eqn:A.
      + injection H as <-. destruct (N.ltb_spec (N_of_ascii c - 48) 10); lia.
      + destruct ((97 <=? N_of_ascii c)%N && (N_of_ascii c <=? 122)%N)%bool eqn:B; [|discriminate].
        injection H as <-. destruct (N.ltb_spec (N_of_ascii c - 87) 10); lia. }
  assert (K : exists k, k < 16 /\ d = N.of_nat k) by (exists (N.to_nat d); lia).
  destruct K as (k & Hk & ->). rewrite Nnat.Nat2N.id. clear H L.
  destruct E as [-> | [-> G]]; [left; do 16 (destruct k as [|k]; [reflexivity|]); lia|right].
  do 10 (destruct k as [|k]; [exfalso; lia|]). do 6 (destruct k as [|k]; [reflexivity|]). lia.
Qed.

Lemma hexes_number s n : hexes s = Some n -> hex_number s n.
Proof.
  unfold hexes.
  enough (G : forall s p m, hex_number p m ->
            (fix go (acc : N) (s : string) : option N :=
     match s with
     | EmptyString => Some acc
     | String c s' => match digit_val c with
                      | Some d => if (d <? 16)%N then go (acc * 16 + d)%N s' else None
                      | None => None
                      end
     end) m s = Some n -> hex_number (p ++ s) n).
  { intros H. exact (G s "" 0%N hex_nil H). }
  clear s. induction s as [|c s IH]; intros p m P H.
  - injection H as <-. assert (E : p ++ "" = p) by (clear; induction p as [|a p IH]; cbn; congruence). now rewrite E.
  - destruct (digit_val c) as [d|] eqn:D; [|discriminate].
    destruct (d <? 16)%N eqn:B; [|discriminate].
    assert (A : p ++ String c s = (p ++ String c "") ++ s)
      by (clear; induction p as [|a p IH]; [reflexivity|]; cbn [append]; now rewrite IH).
    rewrite A. refine (IH _ _ _ H). apply hex_snoc; [exact P|]. apply some_digit; [exact D|lia].
Qed.

Fixpoint entries_check (lingo : N) (fs : list (string * pty)) (es : list (N * pty)) : bool :=
  match fs, es with
  | [], [] => true
  | (String a (String b (String c s)), t) :: fs', (id, u) :: es' =>
      match hexes (String c s) with
      | Some n => Ascii.eqb a "0" && Ascii.eqb b "x" && (id =? lingo * 65536 + n)%N && (n <? 65536)%N && pty_eqb t u && entries_check lingo fs' es'
      | None => false
      end
  | _, _ => false
  end.

Lemma entries_check_ok lingo fs : forall es, entries_check lingo fs es = true -> table_entries lingo fs es.
Proof.
  induction fs as [|[tag t] fs IH]; intros [|[id u] es] H; cbn [entries_check] in H; try discriminate.
  - apply tbl_nil.
  - destruct tag as [|a [|b [|c s]]]; discriminate H.
  - destruct tag as [|a [|b [|c s]]]; try discriminate H.
    destruct (hexes (String c s)) as [n|] eqn:X; [|discriminate].
    rewrite !Bool.andb_true_iff in H. destruct H as [[[[[Ha Hb] H1] H2] H3] H4].
    apply Ascii.eqb_eq in Ha. apply Ascii.eqb_eq in Hb. subst a b.
    apply N.eqb_eq in H1. apply pty_eqb_eq in H3. subst id u.
    apply tbl_cons; [|lia|exact (IH es H4)].
    exists (String c s). split; [reflexivity|]. split; [discriminate|]. exact (hexes_number _ _ X).
Qed.
Local Close Scope string_scope.

Lemma table_good lingo fs es : table_entries lingo fs es -> good_entries lingo fs = es.
Proof.
  induction 1 as [|tag c t fs es Ht Hb _ IH]; [reflexivity|]. cbn [good_entries].
  rewrite (hex_tag_parse _ _ Ht). destruct (N.ltb_spec c 65536) as [_|L]; [|lia].
  rewrite NewLingoCmdID_eq by exact Hb. now rewrite IH.
Qed.

Lemma register_all reg lingo fs es :
  table_entries lingo fs es -> RegisterLingos reg lingo fs = (reg ++ es, None).
Proof.
  intros H. rewrite (surjective_pairing (RegisterLingos reg lingo fs)).
  rewrite RegisterLingos_entries, (table_good _ _ _ H). f_equal.
  apply RegisterLingos_err. intros tag t Hin.
  induction H as [|tag' c t' fs es Ht Hb H IH]; [destruct Hin|].
  destruct Hin as [E|Hin]; [injection E as <- <-|auto].
  rewrite (hex_tag_parse _ _ Ht). destruct (N.ltb_spec c 65536); [discriminate|lia].
Qed.

Lemma register_bad reg lingo pre es tag t post :
  table_entries lingo pre es -> bad_tag tag ->
  exists x, RegisterLingos reg lingo (pre ++ (tag, t) :: post) = (reg ++ es, Some x).
Proof.
  intros H Hb. revert reg. induction H as [|tag' c t' fs es Ht Hc H IH]; intros reg; cbn [app RegisterLingos].
  - rewrite (bad_tag_parse _ Hb), app_nil_r. eauto.
  - rewrite (hex_tag_parse _ _ Ht). destruct (N.ltb_spec c 65536) as [_|L]; [|lia]. rewrite NewLingoCmdID_eq by exact Hc.
    destruct (IH (storeMapping reg (lingo * 65536 + c)%N t')) as [x E]. exists x. rewrite E.
    unfold storeMapping. now rewrite <- app_assoc.
Qed.

(** All five tables are registered completely. *)
Lemma std_tables :
  exists a d e g s,
    table_entries 10 audio_Lingos a /\ table_entries 3 disp_Lingos d /\ table_entries 4 ext_Lingos e
    /\ table_entries 0 general_Lingos g /\ table_entries 2 simple_Lingos s
    /\ Permutation std_registry (a ++ d ++ e ++ g ++ s).
Proof.
  exists (good_entries 10 audio_Lingos), (good_entries 3 disp_Lingos), (good_entries 4 ext_Lingos),
    (good_entries 0 general_Lingos), (good_entries 2 simple_Lingos).
  do 5 (split; [apply entries_check_ok; vm_compute; reflexivity|]).
  match goal with |- Permutation _ ?r => replace r with std_registry by (vm_compute; reflexivity) end. reflexivity.
Qed.

Lemma std_inverse id t :
  In (id, t) std_registry <-> id_of std_registry t = Some id.
Proof. split; [apply std_id_of|apply id_of_in]. Qed.

Lemma dump_listing order reg :
  NoDup order -> (forall id, In id order -> exists t, In (id, t) reg) ->
  exists ids lines, Permutation order ids /\ StronglySorted N.lt ids
    /\ Forall2 (listing_line reg) ids lines
    /\ DumpLingos order reg = fold_right append EmptyString lines.
Proof.
  intros Hd Hin. destruct (dump_lingos_sorted order reg Hd) as (ids & Hp & Hs & E).
  exists ids, (map (fun id => dump_line (id, entry_name reg id)) ids).
  split; [exact Hp|]. split; [exact Hs|]. split.
  - assert (H : Forall (fun id => exists t, In (id, t) reg) ids).
    { rewrite Forall_forall. intros id Hid. apply Hin. eapply Permutation_in; [apply Permutation_sym|]; eauto. }
    clear - H. induction H as [|id l [t Ht] _ IH]; cbn [map]; constructor; auto.
    apply types_of_in in Ht. unfold listing_line, entry_name. destruct (types_of reg id) as [|u ts]; [destruct Ht|].
    destruct (id_GoString_text id) as (l0 & c0 & T & E). exists u, ts, l0, c0. split; [reflexivity|]. split; [exact T|].
    unfold dump_line. cbn [fst snd]. rewrite E, !sapp_assoc. reflexivity.
  - rewrite E. unfold dump_text. clear. induction ids; cbn [fold_right map]; congruence.
Qed.

Lemma dump_order order order' reg :
  NoDup order -> Permutation order order' -> DumpLingos order reg = DumpLingos order' reg.
Proof.
  intros Hd Hp. destruct (dump_lingos_sorted order reg Hd) as (ids & P1 & S1 & ->).
  assert (Hd' : NoDup order') by (eapply Permutation_NoDup; eauto).
  destruct (dump_lingos_sorted order' reg Hd') as (ids' & P2 & S2 & ->).
  f_equal. apply sorted_unique; auto. intros x. split; intros H.
  - eapply Permutation_in; [exact P2|]. eapply Permutation_in; [exact Hp|].
    eapply Permutation_in; [apply Permutation_sym; exact P1|exact H].
  - eapply Permutation_in; [exact P1|]. eapply Permutation_in; [apply Permutation_sym; exact Hp|].
    eapply Permutation_in; [apply Permutation_sym; exact P2|exact H].
Qed.
