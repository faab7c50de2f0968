(** Lemmas about the handlers. *)
From Coq Require Import ZifyBool ZifyNat ZifyN.
From Verif Require Import Base BaseFacts GoTypes GoTypesFacts Types Payload Util Lingo Command
  SpecPayload SpecCommand LingoFacts Handlers SpecHandlers.
Ltac Zify.zify_post_hook ::= Z.div_mod_to_equations.
#[local] Opaque std_registry.

(** ** Registered types *)

Definition the_id (t : pty) : N := match id_of std_registry t with Some i => i | None => 0%N end.
Definition registered (t : pty) : bool := match id_of std_registry t with Some _ => true | None => false end.

Lemma registered_in t : registered t = true -> In (the_id t, t) std_registry.
Proof.
  unfold registered, the_id. destruct (id_of std_registry t) as [i|] eqn:E; [|discriminate].
  intros _. now apply id_of_in.
Qed.

Lemma Respond_std req p t :
  payload_type p = Some t -> registered t = true ->
  Respond std_registry req p = Ret [mkCmd (the_id t) (cmd_trx req) (Some p)].
Proof.
  unfold registered, the_id, Respond, BuildCommand, LookupID. intros ->.
  destruct (id_of std_registry t); [reflexivity|discriminate].
Qed.

Lemma Send_std c p t :
  payload_type p = Some t -> registered t = true ->
  Send std_registry c p
  = Ret (((c + 1) mod 2 ^ 32)%N,
         [mkCmd (the_id t) (Some ((c + 1) mod 2 ^ 32 mod 65536)%N) (Some p)]).
Proof.
  unfold registered, the_id, Send, BuildCommand, LookupID. intros ->.
  destruct (id_of std_registry t); [reflexivity|discriminate].
Qed.

(** ** Reasoning about runs *)

Lemma post_ret {S A} (a : A) (h : hstate S) (Q : hstate S -> _ -> list event -> Prop) : Q h a [] -> post (ret a) h Q.
Proof. intros H. exists h, a, []. split; [|exact H]. split; [reflexivity|now rewrite app_nil_r]. Qed.

Lemma post_seq {S A B} (m : act S A) (k : A -> act S B) h (Q : hstate S -> _ -> list event -> Prop) :
  post m h (fun h1 a e1 => post (k a) h1 (fun h2 b e2 => Q h2 b (e1 ++ e2))) -> post (seq m k) h Q.
Proof.
  intros (h1 & a & e1 & [E1 L1] & h2 & b & e2 & [E2 L2] & H).
  exists h2, b, (e1 ++ e2). split; [|exact H]. split.
  - unfold seq. rewrite E1. exact E2.
  - now rewrite L2, L1, app_assoc.
Qed.

Lemma post_ask {S A} c (f : S -> S * A) h (Q : hstate S -> _ -> list event -> Prop) :
  Q (mkH (fst (f (h_dev h))) (h_cert h) (h_trx h) (h_ticks h) (h_log h ++ [Called c]))
    (snd (f (h_dev h))) [Called c] ->
  post (ask c f) h Q.
Proof.
  intros H. unfold post, does, ask. destruct (f (h_dev h)) as [d a].
  do 3 eexists. split; [split; reflexivity|exact H].
Qed.

Lemma post_tell {S} c (f : S -> S) h (Q : hstate S -> _ -> list event -> Prop) :
  Q (mkH (f (h_dev h)) (h_cert h) (h_trx h) (h_ticks h) (h_log h ++ [Called c])) tt [Called c] ->
  post (tell c f) h Q.
Proof. intros H. do 3 eexists. split; [split; reflexivity|exact H]. Qed.

Lemma post_respond {S} req p t (h : hstate S) (Q : hstate S -> _ -> list event -> Prop) :
  payload_type p = Some t -> registered t = true ->
  Q (log h [Wrote (mkCmd (the_id t) (cmd_trx req) (Some p))]) tt
    [Wrote (mkCmd (the_id t) (cmd_trx req) (Some p))] ->
  post (respond std_registry req p) h Q.
Proof.
  intros Hp Ht H. unfold post, does, respond. rewrite (Respond_std req p t Hp Ht).
  do 3 eexists. split; [split; reflexivity|exact H].
Qed.

Definition counted {S} (h : hstate S) (evs : list event) : hstate S :=
  mkH (h_dev h) (h_cert h) ((h_trx h + 1) mod 2 ^ 32)%N (h_ticks h) (h_log h ++ evs).

Lemma post_send {S} p t (h : hstate S) (Q : hstate S -> _ -> list event -> Prop) :
  payload_type p = Some t -> registered t = true ->
  (let c := mkCmd (the_id t) (Some ((h_trx h + 1) mod 2 ^ 32 mod 65536)%N) (Some p) in
   Q (counted h [Wrote c]) tt [Wrote c]) ->
  post (send std_registry p) h Q.
Proof.
  intros Hp Ht H. unfold post, does, send. rewrite (Send_std (h_trx h) p t Hp Ht).
  do 3 eexists. split; [split; reflexivity|exact H].
Qed.

Lemma post_trx_reset {S} (h : hstate S) (Q : hstate S -> _ -> list event -> Prop) :
  Q (mkH (h_dev h) (h_cert h) 0%N (h_ticks h) (h_log h)) tt [] -> post trx_reset h Q.
Proof. intros H. do 3 eexists. split; [split; [reflexivity|cbn; now rewrite app_nil_r]|exact H]. Qed.

Lemma post_cert_reset {S} (h : hstate S) (Q : hstate S -> _ -> list event -> Prop) :
  Q (mkH (h_dev h) [] (h_trx h) (h_ticks h) (h_log h)) tt [] -> post cert_reset h Q.
Proof. intros H. do 3 eexists. split; [split; [reflexivity|cbn; now rewrite app_nil_r]|exact H]. Qed.

Lemma post_cert_write {S} d (h : hstate S) (Q : hstate S -> _ -> list event -> Prop) :
  Q (mkH (h_dev h) (h_cert h ++ d) (h_trx h) (h_ticks h) (h_log h)) tt [] -> post (cert_write d) h Q.
Proof. intros H. do 3 eexists. split; [split; [reflexivity|cbn; now rewrite app_nil_r]|exact H]. Qed.

Lemma post_cert_bytes {S} (h : hstate S) (Q : hstate S -> _ -> list event -> Prop) : Q h (h_cert h) [] -> post cert_bytes h Q.
Proof. intros H. do 3 eexists. split; [split; [reflexivity|now rewrite app_nil_r]|exact H]. Qed.

Lemma post_now {S} clock (h : hstate S) (Q : hstate S -> _ -> list event -> Prop) :
  Q (mkH (h_dev h) (h_cert h) (h_trx h) (h_ticks h + 1) (h_log h)) (clock (h_ticks h)) [] ->
  post (now clock) h Q.
Proof. intros H. do 3 eexists. split; [split; [reflexivity|cbn; now rewrite app_nil_r]|exact H]. Qed.

(** The tokens of one request, one after the other. *)
Fixpoint tell_tokens {S} (dev : DeviceGeneral S) (s : S) (l : list token_value) : S :=
  match l with
  | [] => s
  | t :: l' => tell_tokens dev (fst (dev_SetToken dev s t)) l'
  end.

Lemma post_set_tokens {S} (dev : DeviceGeneral S) l h (Q : hstate S -> _ -> list event -> Prop) :
  Q (mkH (tell_tokens dev (h_dev h) l) (h_cert h) (h_trx h) (h_ticks h)
         (h_log h ++ map (fun t => Called (CSetToken t)) l))
    tt (map (fun t => Called (CSetToken t)) l) ->
  post (set_tokens dev l) h Q.
Proof.
  revert h Q. induction l as [|t l IH]; intros h Q H; cbn [set_tokens].
  - apply post_ret. cbn in H. rewrite app_nil_r in H. destruct h. exact H.
  - apply post_seq, post_ask, IH. cbn [h_dev h_cert h_trx h_ticks h_log].
    rewrite <- app_assoc. exact H.
Qed.

(** Consequence and determinism. *)
Lemma post_weaken {S A} (m : act S A) h (Q R : hstate S -> A -> list event -> Prop) :
  post m h Q -> (forall h' a evs, Q h' a evs -> R h' a evs) -> post m h R.
Proof. intros (h' & a & evs & D & H) K. exists h', a, evs. auto. Qed.

Lemma does_post {S A} (m : act S A) h h' a evs (Q : hstate S -> _ -> list event -> Prop) :
  does m h h' a evs -> post m h Q -> Q h' a evs.
Proof.
  intros [E L] (h2 & a2 & e2 & [E2 L2] & H). rewrite E in E2. injection E2 as <- <-.
  rewrite L in L2. apply app_inv_head in L2. now subst.
Qed.

(** Runs a handler symbolically. *)
Ltac hstep :=
  match goal with
  | |- post (ret _) _ _ => apply post_ret
  | |- post (seq _ _) _ _ => apply post_seq
  | |- post (ask _ _) _ _ => apply post_ask
  | |- post (tell _ _) _ _ => apply post_tell
  | |- post (respond _ _ _) _ _ => eapply post_respond; [reflexivity|vm_compute; reflexivity|]
  | |- post (send _ _) _ _ => eapply post_send; [reflexivity|vm_compute; reflexivity|]
  | |- post trx_reset _ _ => apply post_trx_reset
  | |- post cert_reset _ _ => apply post_cert_reset
  | |- post (cert_write _) _ _ => apply post_cert_write
  | |- post cert_bytes _ _ => apply post_cert_bytes
  | |- post (now _) _ _ => apply post_now
  | |- post (set_tokens _ _) _ _ => apply post_set_tokens
  | |- post (if ?b then _ else _) _ _ => let E := fresh "E" in destruct b eqn:E
  | |- post (match ?x with (_, _) => _ end) _ _ => let E := fresh "E" in destruct x eqn:E
  | |- post (match ?x with Some _ => _ | None => _ end) _ _ => let E := fresh "E" in destruct x eqn:E
  | |- post (match ?x with N0 => _ | Npos _ => _ end) _ _ => let E := fresh "E" in destruct x eqn:E
  | |- post (match ?x with xH => _ | xO _ => _ | xI _ => _ end) _ _ => let E := fresh "E" in destruct x eqn:E
  end; cbv beta zeta.
Ltac hrun := repeat hstep.

(** Cases of a general request: every kind of payload, every type. *)
Ltac by_payload req :=
  let P := fresh "P" in
  destruct (cmd_payload req) as [[t vs|l|l|ty i|l|ty i|ty i|l|l]|] eqn:P;
  [destruct t| | | | | | | | | ].
