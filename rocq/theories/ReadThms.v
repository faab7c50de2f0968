(** What UnmarshalCmd makes of every packet. *)
From Coq Require Import ZifyBool ZifyNat ZifyN.
From Verif Require Import Base BaseFacts GoTypes GoTypesFacts Types Payload PayloadFacts Lingo SpecPayload
  Command SpecCommand LingoFacts WireFacts ReadFacts CommandFacts CommandThms.
Ltac Zify.zify_post_hook ::= Z.div_mod_to_equations.

Lemma size_match_fun t n b c : size_match t n b -> size_match t n c -> b = c.
Proof.
  intros (m & Hm & E) (m' & Hm' & E'). unfold fixed_size in *. rewrite Hm in Hm'. injection Hm' as <-.
  destruct b, c; auto; lia.
Qed.

Lemma chosen_fun reg id mode n t b t' b' :
  chosen reg id mode n t b -> chosen reg id mode n t' b' -> t = t' /\ b = b'.
Proof.
  intros H H'. destruct H as [pre t post b E M Hp|t E M], H' as [pre' t' post' b' E' M' Hp'|t' E' M'].
  - rewrite E in E'. apply app_eq_app in E' as (l & [[-> E2]|[-> E2]]).
    + destruct l as [|u l]; cbn [app] in E2.
      * injection E2 as E3 E4; subst. split; auto. eapply size_match_fun; eauto.
      * injection E2 as E3 E4; subst. exfalso. eapply Hp; [apply in_or_app; right; left; reflexivity|exact M'].
    + destruct l as [|u l]; cbn [app] in E2.
      * injection E2 as E3 E4; subst. split; auto. eapply size_match_fun; eauto.
      * injection E2 as E3 E4; subst. exfalso. eapply Hp'; [apply in_or_app; right; left; reflexivity|exact M].
  - rewrite E in E'. destruct pre as [|u [|]]; try discriminate E'.
    injection E' as E3 E4; subst. exfalso. eapply M'; eauto.
  - rewrite E in E'. destruct pre' as [|u [|]]; try discriminate E'.
    injection E' as E3 E4; subst. exfalso. eapply M; eauto.
  - rewrite E in E'. injection E' as ->. auto.
Qed.

Lemma Lookup_chosen reg id n mode t b :
  Lookup reg id n mode = Some (mkLookup t b) <-> chosen reg id mode n t b.
Proof.
  assert (F : forall t b, Lookup reg id n mode = Some (mkLookup t b) -> chosen reg id mode n t b).
  { intros t0 b0 H. apply Lookup_Some in H as [(pre & post & E & M & Hp)|(E & -> & M)].
    - eapply ch_size; eauto.
    - now apply ch_only. }
  split; [apply F|]. intros H.
  destruct (Lookup reg id n mode) as [[t' b']|] eqn:L.
  - destruct (chosen_fun _ _ _ _ _ _ _ _ (F _ _ eq_refl) H) as [-> ->]. reflexivity.
  - exfalso. unfold Lookup in L. pose proof (lookup_by_size_spec (types_of reg id) n) as S1.
    destruct (lookup_by_size (types_of reg id) n) as [[u c]|] eqn:L1; [discriminate L|].
    destruct H as [pre t post b E (m & Hm & Hn) Hp|t E M].
    + assert (In t (types_of reg id)) as Hin by (rewrite E; apply in_or_app; right; now left).
      specialize (S1 t m Hin Hm). destruct b; lia.
    + rewrite E in L. discriminate L.
Qed.

Lemma UnmarshalCmd_reads rt reg e pkt e' c :
  UnmarshalCmd rt reg e pkt = Ret (e', c, None)
  <-> (exists id, packet_id pkt = Some id /\ e' = mode_after e [id]) /\ command_reads rt reg e' pkt c.
Proof.
  split.
  - intros H. apply UnmarshalCmd_ok in H as (id & t & b & p & body & P & He & L & U & Hc).
    split; [eauto|]. apply Lookup_chosen in L. apply payload_reads_iff in U.
    destruct b.
    + destruct Hc as (x & y & B & ->). exists id, t, true, [x; y], body, p.
      rewrite number_be_dec. auto 7.
    + destruct Hc as (B & ->). exists id, t, false, [], body, p. auto 7.
  - intros ((id & P & He) & id' & t & b & tb & body & p & P' & L & B & Lt & R & ->).
    rewrite P in P'. injection P' as <-. apply Lookup_chosen in L.
    rewrite He in L. rewrite (UnmarshalCmd_found _ _ _ _ _ _ _ P L). cbv zeta. rewrite <- He.
    apply payload_reads_iff in R as [used U].
    destruct b.
    + destruct tb as [|x [|y [|]]]; try discriminate Lt. rewrite B. cbn [app List.length andb].
      change (S (S (List.length body)) <? 2) with false. cbn [firstn skipn]. cbv iota.
      rewrite U. cbn [bind]. rewrite number_be_dec. destruct used; reflexivity.
    + destruct tb; [|discriminate Lt]. cbn [app] in B. rewrite B. cbn [andb]. rewrite U.
      destruct used; reflexivity.
Qed.

Lemma command_reads_fun rt reg mode pkt c c' :
  command_reads rt reg mode pkt c -> command_reads rt reg mode pkt c' -> c = c'.
Proof.
  intros (id & t & b & tb & body & p & P & L & B & Lt & R & ->)
         (id' & t' & b' & tb' & body' & p' & P' & L' & B' & Lt' & R' & ->).
  rewrite P in P'. injection P' as <-.
  destruct (chosen_fun _ _ _ _ _ _ _ _ L L') as [<- <-].
  rewrite B in B'. assert (tb = tb' /\ body = body') as [<- <-].
  { apply app_eq_app in B' as (q & [[-> ->]|[-> ->]]); rewrite app_length in *;
      (destruct q; [now rewrite ?app_nil_r|cbn [List.length] in *; destruct b; lia]). }
  apply payload_reads_iff in R as [u U]. apply payload_reads_iff in R' as [u' U'].
  rewrite U in U'. apply ret_ok_inj in U'. now subst p'.
Qed.
