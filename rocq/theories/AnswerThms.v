(** The bytes of the answers about the player. *)
From Coq Require Import ZifyBool ZifyNat ZifyN.
From Verif Require Import Base BaseFacts GoTypes GoTypesFacts Types Payload Util Lingo Command
  SpecPayload SpecCommand LingoFacts CommandFacts CommandThms Handlers SpecHandlers HandlersFacts
  HandlersThms SpecAnswers.
Ltac Zify.zify_post_hook ::= Z.div_mod_to_equations.
#[local] Opaque std_registry.

Lemma asked_id r t vs : asks r t vs -> cmd_payload r = Some (Pst t vs) /\ cmd_id r = the_id t.
Proof.
  intros [P I]. split; [exact P|]. unfold the_id. now rewrite (std_id_of _ _ I).
Qed.

(** Dispatch: with the id known the handler of the lingo runs. *)
Ltac dispatch t :=
  unfold handlePacket; cbv zeta;
  match goal with
  | D : cmd_id ?r = the_id ?u |- _ => rewrite D; let i := eval vm_compute in (the_id u) in change (the_id u) with i
  end;
  repeat match goal with
  | |- context[(?a =? ?b)%N] => let x := eval vm_compute in (a =? b)%N in change (a =? b)%N with x; cbv iota
  end.

Ltac wire_case :=
  hrun; split; [reflexivity|]; cbn [app]; eexists; split; [reflexivity|];
  intros rt e; erewrite MarshalCmd_complete; [|first [left; reflexivity | right; split; reflexivity]];
  unfold wire_trx; cbn [mode_after cmd_id];
  match goal with |- context[the_id ?u] => let i := eval vm_compute in (the_id u) in change (the_id u) with i end;
  reflexivity.

Lemma fixed_answer {S} clock (dev : DeviceGeneral S) r t vs id body h :
  In (t, id, body) fixed_answers -> asks r t vs ->
  answered (handlePacket std_registry clock dev r) r id body h.
Proof.
  intros I A. apply asked_id in A as [P D]. unfold answered.
  unfold fixed_answers in I.
  do 28 (destruct I as [I|I];
    [injection I as <- <- <-; dispatch r;
     unfold HandleGeneral, HandleExtRemote, HandleDispRemote, HandleAudio; rewrite P; cbv beta zeta iota; wire_case
    |]).
  contradiction I.
Qed.

Lemma state_answer {S} clock (dev : DeviceGeneral S) r ty value h :
  In (ty, value) state_answers -> asks r disp_GetiPodStateInfo [VU ty] ->
  answered (handlePacket std_registry clock dev r) r [x03; x0d] (n2b ty :: value) h.
Proof.
  intros I A. apply asked_id in A as [P D]. unfold answered. dispatch r.
  unfold HandleDispRemote. rewrite P. cbv beta zeta iota. unfold fu. cbn [nth]. clear P D.
  unfold state_answers in I.
  do 15 (destruct I as [I|I];
    [injection I as <- <-; cbn [N.eqb Pos.eqb disp_state_info]; wire_case|]).
  contradiction I.
Qed.

Lemma date_enc y mo da ho mi :
  enc_fields (layout disp_InfoDateTime)
    [VU (y mod 65536); VU (mo mod 256); VU (da mod 256); VU (ho mod 256); VU (mi mod 256)]%N
  = date_bytes (y, mo, da, ho, mi).
Proof.
  cbn [layout enc_fields enc_field be_enc app date_bytes].
  assert (E : (y mod 65536 = y mod 256 + 256 * (y / 256 mod 256))%N).
  { change 65536%N with (256 * 256)%N. apply N.mod_mul_r; discriminate. }
  assert (R : (y mod 256 < 256)%N) by (apply N.mod_lt; discriminate).
  assert (E1 : n2b (y mod 65536 / 256) = n2b (y / 256 mod 256)).
  { f_equal. rewrite E, N.mul_comm, N.div_add by discriminate. rewrite N.div_small by exact R. reflexivity. }
  assert (E2 : n2b (y mod 65536) = n2b (y mod 256)).
  { apply n2b_eq. rewrite E, N.mul_comm, N.mod_add by discriminate. reflexivity. }
  rewrite E1, E2. reflexivity.
Qed.

Lemma date_answer {S} clock (dev : DeviceGeneral S) r h :
  asks r disp_GetiPodStateInfo [VU 9] ->
  answered (handlePacket std_registry clock dev r) r [x03; x0d] (x09 :: date_bytes (clock (h_ticks h))) h.
Proof.
  intros A. apply asked_id in A as [P D]. unfold answered. dispatch r.
  unfold HandleDispRemote. rewrite P. cbv beta zeta iota. unfold fu. cbn [nth N.eqb Pos.eqb]. clear P D.
  apply post_seq, post_seq, post_now. destruct (clock (h_ticks h)) as [[[[y mo] da] ho] mi].
  cbn [disp_date_info]. hrun. split; [reflexivity|]. cbn [app]. eexists. split; [reflexivity|].
  intros rt e. erewrite MarshalCmd_complete; [|left; reflexivity].
  unfold wire_trx; cbn [mode_after cmd_id].
  match goal with |- context[the_id ?u] => let i := eval vm_compute in (the_id u) in change (the_id u) with i end.
  rewrite date_enc. reflexivity.
Qed.

Lemma challenge_answer {S} clock (dev : DeviceGeneral S) r b n h :
  asks r general_GetiPodAuthenticationSignature [VArr b; VU n] ->
  answered (handlePacket std_registry clock dev r) r [x00; x1e] b h.
Proof.
  intros A. apply asked_id in A as [P D]. unfold answered. dispatch r. rewrite P.
  apply post_seq, post_ret.
  unfold HandleGeneral. rewrite P. cbv beta zeta iota. unfold fa. cbn [nth].
  hrun. split; [reflexivity|]. cbn [app]. eexists. split; [reflexivity|].
  intros rt e. erewrite MarshalCmd_complete; [|right; split; reflexivity].
  unfold wire_trx; cbn [mode_after cmd_id].
  match goal with |- context[the_id ?u] => let i := eval vm_compute in (the_id u) in change (the_id u) with i end.
  cbn [enc_fields layout enc_field]. now rewrite app_nil_r.
Qed.

Lemma track_bytes {S} clock (dev : DeviceGeneral S) r ty rest h :
  asks r ext_GetIndexedPlayingTrackInfo (VU ty :: rest) ->
  answered (handlePacket std_registry clock dev r) r [x04; x00; x0d] (n2b ty :: track_answer ty) h.
Proof.
  intros A. apply asked_id in A as [P D]. unfold answered. dispatch r.
  unfold HandleExtRemote. rewrite P. cbv beta zeta iota. unfold fu. cbn [nth]. clear P D.
  destruct (N.le_gt_cases ty 7) as [L|L].
  - assert (I : In ty (map N.of_nat (List.seq 0 8))).
    { apply in_map_iff. exists (N.to_nat ty). split; [lia|]. apply in_seq. lia. }
    cbn in I. repeat (destruct I as [<-|I]; [cbn [ext_track_info track_answer]; wire_case|]). contradiction I.
  - assert (E : ext_track_info ty = IBytes [x00] /\ track_answer ty = [x00]).
    { destruct ty as [|p]; [lia|].
      do 3 (try destruct p as [p|p|]); try (split; reflexivity); exfalso; lia. }
    destruct E as [-> ->]. wire_case.
Qed.

Lemma caps_bytes {S} clock (dev : DeviceGeneral S) r rest h :
  asks r disp_GetIndexedPlayingTrackInfo (VU 0 :: rest) ->
  answered (handlePacket std_registry clock dev r) r [x03; x13]
    (x00 :: repeat x00 4 ++ [x00; x04; x93; xe0] ++ [x00; x00]) h.
Proof.
  intros A. apply asked_id in A as [P D]. unfold answered. dispatch r.
  unfold HandleDispRemote. rewrite P. cbv beta zeta iota. unfold fu. cbn [nth disp_track_info]. clear P D.
  wire_case.
Qed.

Lemma artwork_bytes {S} clock (dev : DeviceGeneral S) r rest h :
  asks r disp_GetIndexedPlayingTrackInfo (VU 8 :: rest) ->
  answered (handlePacket std_registry clock dev r) r [x03; x13] [x08; x08] h.
Proof.
  intros A. apply asked_id in A as [P D]. unfold answered. dispatch r.
  unfold HandleDispRemote. rewrite P. cbv beta zeta iota. unfold fu. cbn [nth disp_track_info]. clear P D.
  wire_case.
Qed.

Lemma answered_serve {S} (handle : command -> act S unit) r rs id body h (Q : list event -> Prop) :
  answered (handle r) r id body h ->
  (forall h1 c, on_wire c id (cmd_trx r) body ->
     post (serve handle rs) h1 (fun _ _ evs => Q (Wrote c :: evs))) ->
  post (serve handle (r :: rs)) h (fun _ _ evs => Q evs).
Proof.
  intros A K. cbn [serve]. apply post_seq. eapply post_weaken; [exact A|].
  intros h1 u evs (_ & c & -> & W). exact (K h1 c W).
Qed.

Ltac serve_next :=
  match goal with
  | |- post (serve ?f (?r :: ?rs)) ?h (fun _ _ evs => @?Q evs) => eapply (answered_serve f r rs _ _ h Q)
  end.
