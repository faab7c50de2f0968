From Coq Require Import ZifyBool ZifyNat ZifyN.
From Verif Require Import Base BaseFacts Trace SpecTrace TraceFacts.
Ltac Zify.zify_post_hook ::= Z.div_mod_to_equations.

Definition no_nl (l : bytes) : Prop := ~ In x0a l.
Definition short (l : bytes) : Prop := (len l <= 65535)%N.

(** ** Lines of a file *)

Lemma raw_lines_line l : forall cur rest, no_nl l ->
  raw_lines cur (l ++ x0a :: rest) = (cur ++ l) :: raw_lines [] rest.
Proof.
  induction l as [|b l IH]; intros cur rest N; cbn [app raw_lines].
  - change (byte_eqb x0a NL) with true. cbn. now rewrite app_nil_r.
  - assert (byte_eqb b NL = false) as ->.
    { apply byte_eqb_neq. intros ->. apply N. left. reflexivity. }
    rewrite IH; [now rewrite <- app_assoc|]. intros H. apply N. now right.
Qed.

Lemma raw_lines_file lines rest :
  Forall no_nl lines -> raw_lines [] (file_of lines ++ rest) = lines ++ raw_lines [] rest.
Proof.
  induction 1 as [|l lines N F IH]; [reflexivity|]. unfold file_of in *. cbn [map List.concat].
  rewrite <- !app_assoc. cbn [app]. rewrite raw_lines_line by auto. cbn. now rewrite IH.
Qed.

Lemma raw_lines_tail l : forall cur, no_nl l ->
  raw_lines cur l = match cur ++ l with [] => [] | t => [t] end.
Proof.
  induction l as [|b l IH]; intros cur N; cbn [raw_lines].
  - rewrite app_nil_r. now destruct cur.
  - assert (byte_eqb b NL = false) as ->.
    { apply byte_eqb_neq. intros ->. apply N. left. reflexivity. }
    rewrite IH; [now rewrite <- app_assoc|]. intros H. apply N. now right.
Qed.

Lemma scan_short lines fin : Forall short lines -> scan lines fin = (map dropCR lines, fin).
Proof.
  induction 1 as [|l lines S F IH]; [reflexivity|]. cbn [scan]. unfold short in S. unfold max_line.
  destruct (N.leb_spec (len l) 65535); [|lia]. now rewrite IH.
Qed.

Lemma scan_long lines l more fin :
  Forall short lines -> ~ short l -> scan (lines ++ l :: more) fin = (map dropCR lines, errTooLong).
Proof.
  intros F NS. induction F as [|l0 lines S F IH]; cbn [app scan]; unfold short in *; unfold max_line.
  - destruct (N.leb_spec (len l) 65535); [lia|reflexivity].
  - destruct (N.leb_spec (len l0) 65535); [|lia]. now rewrite IH.
Qed.

Lemma dropCR_dropped l : dropped l (dropCR l).
Proof.
  unfold dropped, dropCR. destruct (rev l) as [|c r] eqn:E.
  - right. split; [reflexivity|]. intros p ->. rewrite rev_app_distr in E. discriminate.
  - assert (l = rev r ++ [c]) as L by (rewrite <- (rev_involutive l), E; reflexivity).
    destruct (byte_eqb c CR) eqn:B.
    + left. apply byte_eqb_eq in B as ->. exact L.
    + right. split; [reflexivity|]. intros p ->. apply app_inj_tail in L as [_ <-].
      apply byte_eqb_neq in B. now apply B.
Qed.

Lemma dropped_unique l a b : dropped l a -> dropped l b -> a = b.
Proof.
  intros [A|[A NA]] [B|[B NB]]; subst.
  - now apply app_inj_tail in B as [-> _].
  - now destruct (NB a).
  - now destruct (NA b).
  - reflexivity.
Qed.

Lemma dropCR_plain l : ~ In x0d l -> dropCR l = l.
Proof.
  intros N. apply (dropped_unique l); [apply dropCR_dropped|]. right. split; [reflexivity|].
  intros p ->. apply N. apply in_or_app. right. left. reflexivity.
Qed.

(** ** Reading *)

Lemma read_failed n fin ts i : read_msgs n (mkReader ts fin (Some fin) i) = repeat (failed fin) n.
Proof. induction n as [|n IH]; [reflexivity|]. cbn [read_msgs ReadMsg rd_err]. now rewrite IH. Qed.

Lemma read_end n fin i : read_msgs n (mkReader [] fin None i) = repeat (failed fin) n.
Proof. destruct n; [reflexivity|]. cbn. now rewrite read_failed. Qed.

Lemma read_blank n tokens fin i :
  read_msgs n (mkReader ([] :: tokens) fin None i) = read_msgs n (mkReader tokens fin None i).
Proof. destruct n; reflexivity. Qed.

Lemma read_line n text tokens fin i : text <> [] ->
  read_msgs (S n) (mkReader (text :: tokens) fin None i)
  = match Msg_UnmarshalText (mkMsg 0 0 []) text with
    | (m', None) => (mkMsg (msg_Dir m') i (msg_Data m'), None)
                    :: read_msgs n (mkReader tokens fin None ((i + 1) mod 2 ^ 64))
    | (m', Some e) => (m', Some e) :: read_msgs n (mkReader tokens fin None i)
    end%N.
Proof.
  intros NE. cbn [read_msgs]. unfold ReadMsg. cbn [rd_err rd_tokens rd_fin rd_ts ReadMsg_loop].
  destruct text as [|b text]; [congruence|].
  change uint_max1 with (2 ^ 64)%N.
  destruct (Msg_UnmarshalText (mkMsg 0 0 []) (b :: text)) as [m' [e|]]; reflexivity.
Qed.

Lemma read_reads fin lines : forall i, exists rs, reads i lines rs
  /\ forall k, read_msgs (List.length rs + k) (mkReader (map dropCR lines) fin None i)
               = rs ++ repeat (failed fin) k.
Proof.
  induction lines as [|l lines IH]; intros i.
  - exists []. split; [constructor|]. intros k. apply read_end.
  - cbn [map]. pose proof (dropCR_dropped l) as D. destruct (dropCR l) as [|b t] eqn:E.
    + destruct (IH i) as (rs & R & K). exists rs. split; [eapply reads_blank; eauto|].
      intros k. rewrite read_blank. apply K.
    + destruct (unmarshal_cases (mkMsg 0 0 []) (b :: t)) as [(d & data & U & A)|(m & e & U & NA)].
      * destruct (IH ((i + 1) mod 2 ^ 64)%N) as (rs & R & K).
        exists ((mkMsg d i data, None) :: rs). split; [eapply reads_good; eauto|].
        intros k. cbn [List.length Nat.add]. rewrite read_line by discriminate. rewrite U.
        cbn [msg_Dir msg_Data app]. now rewrite K.
      * destruct (IH i) as (rs & R & K).
        exists ((m, Some e) :: rs). split; [eapply reads_bad; eauto; discriminate|].
        intros k. cbn [List.length Nat.add]. rewrite read_line by discriminate. rewrite U.
        cbn [app]. now rewrite K.
Qed.

Lemma reads_length_fun i lines rs : reads i lines rs -> forall rs', reads i lines rs' ->
  Forall2 (fun a b => snd a = None <-> snd b = None) rs rs'
  /\ map fst (filter (fun x => match snd x with None => true | _ => false end) rs)
     = map fst (filter (fun x => match snd x with None => true | _ => false end) rs').
Proof.
  induction 1 as [i|i l ls rs D R IH|i l t d data ls rs D A R IH|i l t m e ls rs D N NA R IH];
    intros rs' R'; inversion R' as [|i' l' ls' rs2 D' R2|i' l' t' d' data' ls' rs2 D' A' R2|i' l' t' m' e' ls' rs2 D' N' NA' R2]; subst.
  - split; [constructor|reflexivity].
  - auto.
  - rewrite (dropped_unique _ _ _ D' D) in A'. destruct A' as [L _]. cbn in L. lia.
  - now rewrite (dropped_unique _ _ _ D' D) in N'.
  - rewrite (dropped_unique _ _ _ D D') in A. destruct A as [L _]. cbn in L. lia.
  - rewrite (dropped_unique _ _ _ D D') in A. destruct (accepts_unique _ _ _ _ _ A A') as [-> ->].
    destruct (IH _ R2) as [F E]. split; [constructor; [cbn; tauto|auto]|]. cbn. now rewrite E.
  - rewrite (dropped_unique _ _ _ D D') in A. now apply NA' in A.
  - now rewrite (dropped_unique _ _ _ D D') in N.
  - rewrite (dropped_unique _ _ _ D D') in NA. now apply NA in A'.
  - destruct (IH _ R2) as [F E]. split; [constructor; [cbn; split; discriminate|auto]|]. cbn. now rewrite E.
Qed.

Lemma mixed_file lines fin : Forall no_nl lines -> Forall short lines ->
  exists rs, reads 0 lines rs
    /\ forall k, read_msgs (List.length rs + k) (NewReader (file_of lines) fin) = rs ++ repeat (failed fin) k.
Proof.
  intros N S. destruct (read_reads fin lines 0) as (rs & R & K). exists rs. split; [exact R|].
  intros k. unfold NewReader. rewrite <- (app_nil_r (file_of lines)), raw_lines_file by auto.
  cbn [raw_lines]. rewrite app_nil_r, scan_short by auto. apply K.
Qed.

(** ** Messages *)

Lemma line_no_nl m t : line_of m t -> no_nl t /\ ~ In x0d t.
Proof.
  intros H. apply line_range in H. rewrite Forall_forall in H.
  split; intros I; apply H in I; cbn in I; lia.
Qed.

Lemma line_dropCR m t : line_of m t -> dropCR t = t.
Proof. intros H. apply dropCR_plain. now apply line_no_nl in H. Qed.

Lemma line_short m t : line_of m t -> (len (msg_Data m) <= 21844)%N <-> short t.
Proof. intros H. apply line_length in H. unfold short, len. lia. Qed.

Lemma line_unmarshal m t m0 : line_of m t ->
  Msg_UnmarshalText m0 t = (mkMsg (msg_Dir m) (msg_TS m0) (msg_Data m), None).
Proof. intros H. apply unmarshal_ok. now apply line_accepted. Qed.

Lemma line_nonempty m t : line_of m t -> t <> [].
Proof. intros (c & t' & _ & _ & ->). discriminate. Qed.

Lemma read_lines ms texts : Forall2 line_of ms texts -> forall i n tokens fin,
  read_msgs (List.length ms + n) (mkReader (texts ++ tokens) fin None (i mod 2 ^ 64)%N)
  = stamped i ms ++ read_msgs n (mkReader tokens fin None ((i + len ms) mod 2 ^ 64)%N).
Proof.
  change (2 ^ 64)%N with 18446744073709551616%N.
  induction 1 as [|m t ms texts L F IH]; intros i n tokens fin.
  - cbn. now rewrite N.add_0_r.
  - cbn [List.length Nat.add app stamped]. rewrite read_line by (eapply line_nonempty; eauto).
    rewrite (line_unmarshal m t) by auto. cbn [msg_Dir msg_Data]. change (2 ^ 64)%N with 18446744073709551616%N.
    f_equal.
    replace ((i mod 18446744073709551616 + 1) mod 18446744073709551616)%N
      with ((i + 1) mod 18446744073709551616)%N by lia.
    rewrite IH. replace (i + 1 + len ms)%N with (i + len (m :: ms))%N; [reflexivity|].
    unfold len. cbn [List.length]. lia.
Qed.

Lemma Forall2_line_no_nl ms texts : Forall2 line_of ms texts -> Forall no_nl texts.
Proof. induction 1; constructor; auto. now apply line_no_nl in H. Qed.

Lemma Forall2_dropCR ms texts : Forall2 line_of ms texts -> map dropCR texts = texts.
Proof. induction 1; cbn; [reflexivity|]. rewrite IHForall2. f_equal. eapply line_dropCR; eauto. Qed.

Lemma Forall2_short ms texts :
  Forall2 line_of ms texts -> Forall (fun m => (len (msg_Data m) <= 21844)%N) ms -> Forall short texts.
Proof.
  induction 1; intros F; [constructor|]. inversion F; subst. constructor; auto.
  eapply (line_short x y); eauto.
Qed.

Lemma new_reader ms texts rest fin :
  Forall2 line_of ms texts -> Forall (fun m => (len (msg_Data m) <= 21844)%N) ms ->
  no_nl rest -> short rest ->
  NewReader (file_of texts ++ rest) fin
  = mkReader (texts ++ match rest with [] => [] | _ => [dropCR rest] end) fin None 0.
Proof.
  intros F S NR SR. unfold NewReader.
  rewrite raw_lines_file by (eapply Forall2_line_no_nl; eauto).
  rewrite raw_lines_tail by auto. cbn [app].
  rewrite scan_short.
  - rewrite map_app, (Forall2_dropCR ms) by auto. now destruct rest.
  - apply Forall_app. split; [eapply Forall2_short; eauto|]. destruct rest; auto.
Qed.

Lemma read_file ms texts fin k :
  Forall2 line_of ms texts -> Forall (fun m => (len (msg_Data m) <= 21844)%N) ms ->
  read_msgs (List.length ms + k) (NewReader (file_of texts) fin) = stamped 0 ms ++ repeat (failed fin) k.
Proof.
  intros F S. rewrite <- (app_nil_r (file_of texts)).
  rewrite (new_reader ms texts [] fin F S) by (first [now intros []|unfold short; cbn; lia]).
  pose proof (read_lines ms texts F 0 k [] fin) as R. cbn [N.modulo N.div_eucl] in R.
  change (0 mod 2 ^ 64)%N with 0%N in R. rewrite R, read_end. reflexivity.
Qed.

Lemma read_file_long ms texts m t more fin k :
  Forall2 line_of ms texts -> Forall (fun m => (len (msg_Data m) <= 21844)%N) ms ->
  line_of m t -> (21844 < len (msg_Data m))%N ->
  read_msgs (List.length ms + k) (NewReader (file_of (texts ++ [t]) ++ more) fin)
  = stamped 0 ms ++ repeat (failed errTooLong) k.
Proof.
  intros F S L B. unfold NewReader.
  rewrite raw_lines_file.
  2: { apply Forall_app. split; [eapply Forall2_line_no_nl; eauto|]. constructor; auto.
       now apply line_no_nl in L. }
  rewrite <- app_assoc. cbn [app]. rewrite scan_long.
  - rewrite (Forall2_dropCR ms) by auto.
    pose proof (read_lines ms texts F 0 k [] errTooLong) as R. rewrite app_nil_r in R.
    change (0 mod 2 ^ 64)%N with 0%N in R. rewrite R, read_end. reflexivity.
  - eapply Forall2_short; eauto.
  - intros H. apply (line_short m t) in H; auto. lia.
Qed.

(** ** Writing *)

Lemma WriteMsg_line {W} (w : io_write W) s m t : line_of m t ->
  WriteMsg w s m = let '(s', (_, e)) := w s (t ++ [x0a]) in (s', e).
Proof. intros H. apply marshal_line in H. unfold WriteMsg. now rewrite H. Qed.

Lemma WriteMsg_refused {W} (w : io_write W) s m : ~ recordable m -> exists e, WriteMsg w s m = (s, Some e).
Proof. intros H. apply marshal_refuses in H as [e E]. exists e. unfold WriteMsg. now rewrite E. Qed.

Lemma lines_exist ms : Forall recordable ms -> exists texts, Forall2 line_of ms texts.
Proof.
  induction 1 as [|m ms R F (texts & IH)]; [exists []; constructor|].
  apply recordable_line in R as [t T]. apply marshal_line in T. exists (t :: texts). constructor; auto.
Qed.

Lemma write_file ms texts : Forall2 line_of ms texts -> forall f,
  write_msgs append_file f ms = (f ++ file_of texts, map (fun _ => None) ms).
Proof.
  induction 1 as [|m t ms texts L F IH]; intros f.
  - cbn. unfold file_of. cbn. now rewrite app_nil_r.
  - cbn [write_msgs]. rewrite (WriteMsg_line _ _ m t) by auto. unfold append_file at 1.
    rewrite IH. unfold file_of. cbn [map List.concat]. now rewrite <- app_assoc.
Qed.

Lemma readable_split ms : Forall readable ms ->
  Forall recordable ms /\ Forall (fun m => (len (msg_Data m) <= 21844)%N) ms.
Proof. intros F. split; eapply Forall_impl; try exact F; now intros m [? ?]. Qed.

Lemma file_roundtrip ms fin k : Forall readable ms ->
  exists file, write_msgs append_file [] ms = (file, map (fun _ => None) ms)
    /\ read_msgs (List.length ms + k) (NewReader file fin) = stamped 0 ms ++ repeat (failed fin) k.
Proof.
  intros R. apply readable_split in R as [R S]. destruct (lines_exist ms R) as (texts & F).
  exists (file_of texts). split; [apply (write_file ms texts F [])|]. now apply read_file.
Qed.

Lemma file_roundtrip_long ms m more fin k :
  Forall readable ms -> recordable m -> (21844 < len (msg_Data m))%N -> Forall recordable more ->
  exists file, write_msgs append_file [] (ms ++ m :: more) = (file, map (fun _ => None) (ms ++ m :: more))
    /\ read_msgs (List.length ms + k) (NewReader file fin) = stamped 0 ms ++ repeat (failed errTooLong) k.
Proof.
  intros R Rm B RM. apply readable_split in R as [R S].
  destruct (lines_exist ms R) as (texts & F). destruct (lines_exist more RM) as (mtexts & FM).
  destruct (recordable_line m Rm) as (t & T). apply marshal_line in T.
  exists (file_of (texts ++ [t]) ++ file_of mtexts). split.
  - rewrite (write_file (ms ++ m :: more) (texts ++ t :: mtexts)).
    + unfold file_of. rewrite !map_app, !concat_app. cbn [map List.concat app].
      rewrite app_nil_r, <- !app_assoc. reflexivity.
    + apply Forall2_app; auto.
  - eapply read_file_long; eauto.
Qed.

(** ** Cut files *)

Lemma cut_file texts : forall k, k <= List.length (file_of texts) ->
  exists n rest, n <= List.length texts
    /\ firstn k (file_of texts) = file_of (firstn n texts) ++ rest
    /\ List.length (file_of (firstn n texts)) <= k
    /\ (n < List.length texts -> k < List.length (file_of (firstn (S n) texts)))
    /\ (rest = [] \/ exists t j, nth_error texts n = Some t /\ 0 < j <= List.length t /\ rest = firstn j t).
Proof.
  induction texts as [|t texts IH]; intros k K.
  - exists 0, []. assert (k = 0) as -> by (cbn in K; lia).
    split; [cbn; lia|]. split; [reflexivity|]. split; [cbn; lia|]. split; [cbn; lia|]. left. reflexivity.
  - unfold file_of in *. cbn [map List.concat] in *. rewrite app_length in K.
    destruct (Nat.le_gt_cases (List.length (t ++ [x0a])) k) as [G|G].
    + destruct (IH (k - List.length (t ++ [x0a]))) as (n & rest & N & E & L & NX & R); [lia|].
      exists (S n), rest. cbn [firstn map List.concat List.length nth_error] in *.
      repeat split; auto; try lia.
      * rewrite firstn_app, (firstn_all2 (t ++ [x0a]) G), E. now rewrite <- !app_assoc.
      * rewrite app_length. lia.
      * intros H. specialize (NX ltac:(lia)). destruct texts as [|t' texts]; [cbn in H; lia|].
        rewrite app_length. lia.
    + exists 0, (firstn k (t ++ [x0a])). cbn [firstn map List.concat List.length app nth_error].
      repeat split; try lia.
      * rewrite firstn_app. replace (k - List.length (t ++ [x0a])) with 0 by lia. cbn. apply app_nil_r.
      * intros _. rewrite app_nil_r. lia.
      * destruct k as [|k]; [left; reflexivity|]. right. exists t, (S k). rewrite app_length in G. cbn in G.
        repeat split; try lia. rewrite firstn_app. replace (S k - List.length t) with 0 by lia.
        cbn [firstn]. now rewrite app_nil_r.
Qed.

Lemma pairs_prefix d1 t1 : pairs d1 t1 -> forall d2 r, pairs d2 (t1 ++ r) -> exists q, d2 = d1 ++ q.
Proof.
  induction 1 as [|b c1 c2 d1 t1 (v1 & v2 & H1 & H2 & E) P IH]; intros d2 r P2; [exists d2; reflexivity|].
  cbn [app] in P2. inversion P2 as [|b' x1 x2 d2' t2 (w1 & w2 & G1 & G2 & E') P2']; subst.
  apply hexDigit_any in H1, H2, G1, G2.
  assert (w1 = v1 /\ w2 = v2) as [-> ->] by (split; congruence).
  assert (b' = b) as -> by (apply b2n_inj; congruence).
  destruct (IH _ _ P2') as (q & ->). exists q. reflexivity.
Qed.

Lemma pairs_digits data t : pairs data t -> Forall (fun c => exists v, any_hex c v) t.
Proof.
  induction 1 as [|b c1 c2 d1 t1 (v1 & v2 & H1 & H2 & E) P IH]; [constructor|].
  repeat apply Forall_cons; eauto.
Qed.

Lemma white_first w c l : white w -> w = c :: l -> forall v, ~ any_hex c v.
Proof.
  intros (runes & F & ->) E. revert E. destruct F as [|r runes H F]; [discriminate|].
  cbn [List.concat]. unfold blank_runes in H. cbn [In] in H. intros E v HV. apply hexDigit_any in HV.
  repeat (destruct H as [<-|H]; [cbn in E; injection E as <- _; vm_compute in HV; discriminate|]).
  contradiction.
Qed.

Lemma filter_firstn {A} (f : A -> bool) r l : exists q, filter f l = filter f (firstn r l) ++ q.
Proof. exists (filter f (skipn r l)). rewrite <- filter_app, firstn_skipn. reflexivity. Qed.

(** A cut line is refused, or read as the beginning of its message. *)
Lemma cut_line m t j d data :
  line_of m t -> accepts (firstn j t) d data ->
  d = msg_Dir m /\ data <> [] /\ exists q, msg_Data m = data ++ q.
Proof.
  intros (c & t' & S & H & ->) (L & c' & x & body & w & digits & tail & E & S' & EF & W & P & ND & NT).
  destruct j as [|[|j]]; [cbn in L; lia|cbn in L; lia|].
  cbn [firstn] in E. injection E as <- <- <-.
  split; [|split; [exact ND|]].
  { destruct S as [[-> ->]|[-> ->]]; destruct S' as [[-> A]|[-> A]]; auto; discriminate. }
  destruct (filter_hexes _ _ H) as (D & ED & PD).
  destruct (filter_firstn (fun b => negb (byte_eqb b x20)) j t') as (q & Eq).
  rewrite ED, EF in Eq.
  destruct w as [|c0 w].
  - cbn [app] in Eq. rewrite Eq in PD. rewrite <- app_assoc in PD. eapply pairs_prefix; eauto.
  - exfalso. apply pairs_digits in PD. rewrite Eq in PD. cbn [app] in PD. inversion PD as [|? ? [v Hv] _]; subst.
    eapply white_first; eauto.
Qed.

Lemma Forall2_len {A B} (R : A -> B -> Prop) l l' : Forall2 R l l' -> List.length l = List.length l'.
Proof. induction 1; cbn; auto. Qed.

Lemma Forall2_firstn {A B} (R : A -> B -> Prop) n : forall l l', Forall2 R l l' -> Forall2 R (firstn n l) (firstn n l').
Proof. induction n; intros l l' H; [constructor|]. destruct H; cbn; constructor; auto. Qed.

Lemma Forall2_nth {A B} (R : A -> B -> Prop) l l' : Forall2 R l l' -> forall n y,
  nth_error l' n = Some y -> exists x, nth_error l n = Some x /\ R x y.
Proof.
  induction 1; intros [|n] z E; cbn in E; try discriminate.
  - injection E as <-. cbn. eauto.
  - cbn. eauto.
Qed.

Lemma Forall_firstn {A} (P : A -> Prop) n l : Forall P l -> Forall P (firstn n l).
Proof. intros F. rewrite <- (firstn_skipn n l) in F. now apply Forall_app in F. Qed.

Lemma crash ms texts k fin e :
  Forall2 line_of ms texts -> Forall (fun m => (len (msg_Data m) <= 21844)%N) ms ->
  k <= List.length (file_of texts) ->
  exists n extra, n <= List.length ms
    /\ List.length (file_of (firstn n texts)) <= k
    /\ (n < List.length ms -> k < List.length (file_of (firstn (S n) texts)))
    /\ (extra = [] \/ exists m, nth_error ms n = Some m
          /\ ((exists x er, extra = [(x, Some er)])
              \/ exists p q, p <> [] /\ msg_Data m = p ++ q
                   /\ extra = [(mkMsg (msg_Dir m) (N.of_nat n mod 2 ^ 64)%N p, None)]))
    /\ read_msgs (n + List.length extra + e) (NewReader (firstn k (file_of texts)) fin)
       = stamped 0 (firstn n ms) ++ extra ++ repeat (failed fin) e.
Proof.
  intros F S K. destruct (cut_file texts k K) as (n & rest & N & E & L & NX & R).
  assert (List.length ms = List.length texts) as LEN by (eapply Forall2_len; eauto).
  assert (List.length (firstn n ms) = n) as LN by (rewrite firstn_length; lia).
  pose proof (Forall2_firstn _ n _ _ F) as Fn. pose proof (Forall_firstn _ n _ S) as Sn.
  destruct R as [->|(t & j & Et & J & ->)].
  - exists n, []. repeat split; try lia; auto. rewrite E, app_nil_r. cbn [List.length app].
    rewrite Nat.add_0_r. rewrite <- LN at 1. now apply read_file.
  - destruct (Forall2_nth _ _ _ F _ _ Et) as (m & Em & Lm).
    destruct (line_no_nl _ _ Lm) as [NN NC].
    assert (incl (firstn j t) t) as INC.
    { intros x I. rewrite <- (firstn_skipn j t). apply in_or_app. auto. }
    assert (no_nl (firstn j t)) as NNj by (intros I; apply INC in I; auto).
    assert (dropCR (firstn j t) = firstn j t) as Dj by (apply dropCR_plain; intros I; apply INC in I; auto).
    assert (short (firstn j t)) as Sj.
    { assert (short t) as St. { apply (line_short m t Lm). rewrite Forall_forall in S. apply S.
        eapply nth_error_In; eauto. }
      unfold short, len in *. rewrite firstn_length. lia. }
    assert (firstn j t <> []) as NEj.
    { intros Q. apply (f_equal (@List.length _)) in Q. rewrite firstn_length in Q. cbn in Q. lia. }
    assert (forall a, read_msgs (n + a) (NewReader (firstn k (file_of texts)) fin)
            = stamped 0 (firstn n ms) ++ read_msgs a (mkReader [firstn j t] fin None (N.of_nat n mod 2 ^ 64)%N)) as RD.
    { intros a. rewrite E, (new_reader (firstn n ms)) by auto.
      pose proof (read_lines _ _ Fn 0 a [firstn j t] fin) as R0. change (0 mod 2 ^ 64)%N with 0%N in R0.
      unfold len in R0. rewrite LN in R0. rewrite N.add_0_l in R0. rewrite <- R0. f_equal. f_equal.
      rewrite Dj. destruct (firstn j t); [congruence|reflexivity]. }
    destruct (unmarshal_cases (mkMsg 0 0 []) (firstn j t)) as [(d & data & U & A)|(x & er & U & NA)].
    + destruct (cut_line _ _ _ _ _ Lm A) as (-> & ND & q & Q).
      exists n, [(mkMsg (msg_Dir m) (N.of_nat n mod 2 ^ 64)%N data, None)].
      repeat split; try lia; auto.
      * right. exists m. split; auto. right. exists data, q. auto.
      * rewrite <- Nat.add_assoc, RD. cbn [List.length Nat.add]. f_equal.
        rewrite read_line by auto. rewrite U. cbn [msg_Dir msg_Data]. rewrite read_end. reflexivity.
    + exists n, [(x, Some er)]. repeat split; try lia; auto.
      * right. exists m. split; auto. left. eauto.
      * rewrite <- Nat.add_assoc, RD. cbn [List.length Nat.add]. f_equal.
        rewrite read_line by auto. rewrite U. rewrite read_end. reflexivity.
Qed.
