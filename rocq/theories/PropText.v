(** Properties C81-C84: names of values and masks, texts of ids and transactions, log lines. *)
From Coq Require Import Ascii Permutation ZifyBool ZifyNat ZifyN Lia.
From Verif Require Import Base GoTypes Types Payload Lingo Text SpecText TextFacts TextThms.
Local Open Scope string_scope.

(** ** C81 *)

(** The types with names: their String methods, declared constants and names. *)
Definition named_types : list ((N -> outcome string) * list (N * string) * string) :=
  [(LingoBit_String, LingoBit_names, "LingoBit"); (AccInfoType_String, AccInfoType_names, "AccInfoType");
   (AccCapBit_String, AccCapBit_names, "AccCapBit"); (ContextButtonBit_String, ContextButtonBit_names, "ContextButtonBit");
   (InfoType_String, InfoType_names, "InfoType"); (PlayStatusType_String, PlayStatusType_names, "PlayStatusType");
   (TrackInfoType_String, TrackInfoType_names, "TrackInfoType")].

Lemma named_types_ok f names ty : In (f, names, ty) named_types ->
  strings_ok f names ty /\ plain_names names = true /\ distinct (map snd names) = true.
Proof.
  intros H.
  assert (F : Forall (fun x => strings_ok (fst (fst x)) (snd (fst x)) (snd x) /\ plain_names (snd (fst x)) = true
    /\ distinct (map snd (snd (fst x))) = true) named_types).
  { unfold named_types.
    apply Forall_cons; [split; [exact LingoBit_ok|split; vm_compute; reflexivity]|].
    apply Forall_cons; [split; [exact AccInfoType_ok|split; vm_compute; reflexivity]|].
    apply Forall_cons; [split; [exact AccCapBit_ok|split; vm_compute; reflexivity]|].
    apply Forall_cons; [split; [exact ContextButtonBit_ok|split; vm_compute; reflexivity]|].
    apply Forall_cons; [split; [exact InfoType_ok|split; vm_compute; reflexivity]|].
    apply Forall_cons; [split; [exact PlayStatusType_ok|split; vm_compute; reflexivity]|].
    apply Forall_cons; [split; [exact TrackInfoType_ok|split; vm_compute; reflexivity]|].
    apply Forall_nil. }
  rewrite Forall_forall in F. exact (F _ H).
Qed.

(** Every value has a text: the name declared for it, or else its type and number. *)
Theorem C81_names f names ty :
  In (f, names, ty) named_types -> forall i, exists s, f i = Ret s /\ text_of names ty i s.
Proof. intros H. exact (proj1 (named_types_ok f names ty H)). Qed.
Print Assumptions C81_names.

(** Different values have different texts. *)
Theorem C81_names_differ f names ty :
  In (f, names, ty) named_types -> forall i j s, f i = Ret s -> f j = Ret s -> i = j.
Proof.
  intros H i j s Ei Ej. destruct (named_types_ok f names ty H) as (OK & P & D).
  destruct (OK i) as (si & E1 & T1). destruct (OK j) as (sj & E2 & T2).
  assert (si = s) by congruence. assert (sj = s) by congruence. subst si sj. exact (text_of_inj _ _ _ _ _ P D T1 T2).
Qed.
Print Assumptions C81_names_differ.

Example C81_case :
  InfoType_String 9 = Ret "InfoTypeDateTime" /\ InfoType_String 10 = Ret "InfoType(10)"
  /\ InfoType_String 16 = Ret "InfoTypeVolume2" /\ ContextButtonBit_String 524288 = Ret "ContextButtonBacklightfor30Seconds"
  /\ LingoBit_String 2048 = Ret "LingoBit(2048)" /\ PlayStatusType_String 255 = Ret "PlayStatusType(255)".
Proof. repeat split; vm_compute; reflexivity. Qed.

(** ** C82 *)

(** The text of a mask: the texts of the bits set in it, from the lowest, with bars between. *)
Theorem C82_lingo_mask m : exists s, LingoMask_String m = Ret s /\ mask_text LingoBit_names "LingoBit" m s.
Proof. exact (mask_ok _ _ _ m LingoBit_ok). Qed.
Print Assumptions C82_lingo_mask.
Theorem C82_button_mask m : exists s, ContextButtonMask_String m = Ret s /\ mask_text ContextButtonBit_names "ContextButtonBit" m s.
Proof. exact (mask_ok _ _ _ m ContextButtonBit_ok). Qed.
Print Assumptions C82_button_mask.

(** Different masks have different texts. *)
Theorem C82_masks_differ m m' :
  (m < 2 ^ 32)%N -> (m' < 2 ^ 32)%N ->
  (LingoMask_String m = LingoMask_String m' -> m = m') /\ (ContextButtonMask_String m = ContextButtonMask_String m' -> m = m').
Proof.
  intros L L'. split; intros E.
  - destruct (C82_lingo_mask m) as (s & E1 & T1). destruct (C82_lingo_mask m') as (s' & E2 & T2).
    assert (s' = s) by congruence. subst s'. exact (mask_text_inj LingoBit_names "LingoBit" m m' s eq_refl eq_refl eq_refl L L' T1 T2).
  - destruct (C82_button_mask m) as (s & E1 & T1). destruct (C82_button_mask m') as (s' & E2 & T2).
    assert (s' = s) by congruence. subst s'. exact (mask_text_inj ContextButtonBit_names "ContextButtonBit" m m' s eq_refl eq_refl eq_refl L L' T1 T2).
Qed.
Print Assumptions C82_masks_differ.

Example C82_case :
  LingoMask_String 21 = Ret "LingoGeneralBit | LingoSimpleRemoteBit | LingoExtRemoteBit"
  /\ LingoMask_String 0 = Ret "" /\ ContextButtonMask_String 2147483649 = Ret "ContextButtonPlayPause | ContextButtonBit(2147483648)".
Proof. repeat split; vm_compute; reflexivity. Qed.

(** ** C83 *)

(** The texts of a command id, of which there is just one. *)
Theorem C83_id_text id : exists l c, id_text id l c
  /\ id_String id = l ++ "," ++ c /\ id_GoString id = "(" ++ l ++ "|" ++ c ++ ")"
  /\ (forall l' c', id_text id l' c' -> l' = l /\ c' = c).
Proof.
  destruct (id_String_text id) as (l & c & T & E). destruct (id_GoString_text id) as (l' & c' & T' & E').
  destruct (id_text_unique _ _ _ _ _ T T') as [-> ->]. exists l', c'. split; [exact T|]. split; [exact E|]. split; [exact E'|].
  intros l2 c2 T2. exact (id_text_unique _ _ _ _ _ T2 T).
Qed.
Print Assumptions C83_id_text.

(** Different ids have different texts. *)
Theorem C83_ids_differ id id' : (id < 2 ^ 24)%N -> (id' < 2 ^ 24)%N -> id_String id = id_String id' -> id = id'.
Proof. exact (id_String_inj id id'). Qed.
Print Assumptions C83_ids_differ.

(** A transaction is shown as 0x and four digits. *)
Theorem C83_transaction tr : (tr < 65536)%N ->
  hexadecimal 4 tr (Transaction_String tr) /\ String.length (Transaction_String tr) = 6.
Proof.
  intros L. split; [apply Transaction_String_hex|]. exact (hexadecimal_exact 4 tr _ (Transaction_String_hex tr) L ltac:(lia)).
Qed.
Print Assumptions C83_transaction.

Theorem C83_transactions_differ tr tr' : Transaction_String tr = Transaction_String tr' -> tr = tr'.
Proof.
  intros E. pose proof (Transaction_String_hex tr) as A. pose proof (Transaction_String_hex tr') as B. rewrite E in A.
  exact (hexadecimal_value _ _ _ _ _ A B).
Qed.
Print Assumptions C83_transactions_differ.

(** Finding: the Go-syntax text of a transaction is not its number but the digits of its text. *)
Theorem C83_transaction_GoString_refuted tr : (tr < 65536)%N ->
  Transaction_String 18 = "0x0012" /\ Transaction_GoString 18 = "0x307830303132"
  /\ ~ hexadecimal 4 tr (Transaction_GoString tr).
Proof.
  intros L. split; [reflexivity|]. split; [reflexivity|]. intros H. apply hexadecimal_exact in H; [|exact L|lia].
  unfold Transaction_GoString in H. rewrite sapp_length in H. change (String.length "0x") with 2 in H.
  assert (G : forall s, String.length (string_hex s) = 2 * String.length s).
  { clear. induction s as [|c s IH]; [reflexivity|]. cbn [string_hex]. rewrite sapp_length, hex_digits_length, IH. cbn [String.length]. lia. }
  rewrite G in H. pose proof (proj2 (C83_transaction tr L)) as E. lia.
Qed.
Print Assumptions C83_transaction_GoString_refuted.

Example C83_case : id_String 262147 = "0x04,0x0003" /\ id_GoString 57 = "(0x00|0x39)" /\ Transaction_String 65535 = "0xffff".
Proof. repeat split; vm_compute; reflexivity. Qed.

(** ** C84 *)

(** Formatting an entry never fails, and gives the line that shows it. *)
Theorem C84_line {V} (runes : string -> nat) (text : option V -> string) (colored : bool) level t msg (data : list (string * V)) :
  (level <= 6)%N -> NoDup (map fst data) ->
  exists line color, Format runes text colored (mkEntry level (Z.of_N t) msg data) = Ret line
    /\ In (level, color) level_colors
    /\ log_line (if colored then in_color color else fun s => s) runes (fun v => text (Some v)) level t msg data line.
Proof. exact (Format_line runes text colored level t msg data). Qed.
Print Assumptions C84_line.

(** The order in which the fields are stored does not matter. *)
Theorem C84_map_order {V} (runes : string -> nat) (text : option V -> string) colored level t msg (d d' : list (string * V)) :
  NoDup (map fst d) -> Permutation d d' ->
  Format runes text colored (mkEntry level t msg d) = Format runes text colored (mkEntry level t msg d').
Proof. exact (Format_order runes text colored level t msg d d'). Qed.
Print Assumptions C84_map_order.

(** An entry is one line if its message and fields have no line ends. *)
Theorem C84_one_line {V} (runes : string -> nat) (text : option V -> string) colored level t msg (data : list (string * V)) :
  (level <= 6)%N -> NoDup (map fst data) -> one_line msg ->
  (forall k v, In (k, v) data -> one_line k /\ one_line (text (Some v))) ->
  exists body, Format runes text colored (mkEntry level (Z.of_N t) msg data) = Ret (body ++ String "010" "") /\ one_line body.
Proof. exact (Format_one_line runes text colored level t msg data). Qed.
Print Assumptions C84_one_line.

Example C84_case :
  let text v := match v with Some s => s | None => "<nil>" end in
  Format String.length text false (mkEntry 4 12034567890%Z "<< CMD" [("type", "*general.StartIDPS"); ("id", "0x00,0x38"); ("trx", "0x0001")])
  = Ret ("INFO[0012.034567] << CMD                                        id=0x00,0x38 trx=0x0001 type=*general.StartIDPS" ++ String "010" "").
Proof. vm_compute. reflexivity. Qed.
