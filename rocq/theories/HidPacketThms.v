(** Packets through HID frames. *)
From Coq Require Import ZifyBool ZifyNat ZifyN.
From Verif Require Import Base BaseFacts Packet SpecPacket PacketFacts ClientPacket PacketThms
  Hid SpecHid HidFacts HidThms.
Ltac Zify.zify_post_hook ::= Z.div_mod_to_equations.

Lemma filler_app f g : filler f -> filler g -> filler (f ++ g).
Proof. unfold filler. intros F G H. apply in_app_or in H. tauto. Qed.

Lemma filler_zeros k : filler (repeat x00 k).
Proof. intros H. apply repeat_spec in H. discriminate. Qed.

Lemma stream_app_filler ps w z : stream ps w -> filler z -> stream ps (w ++ z).
Proof.
  intros H Z. induction H as [f F|f p w ps rest F P H IH].
  - apply stream_end. now apply filler_app.
  - rewrite <- !app_assoc. now apply stream_pkt.
Qed.

Lemma padded_stream defs ps w got : stream ps w -> padded defs w got -> stream ps got.
Proof. intros H (k & d & _ & _ & _ & ->). apply stream_app_filler; auto using filler_zeros. Qed.

Lemma stream_over_raw defs ps w :
  usable defs -> Forall (fun d => def_Len d <= 1023)%Z defs -> stream ps w -> w <> [] ->
  exists sent, WriteFrame (List.length w) defs raw_writer [] w = Some (Ret (sent, None))
    /\ forall buf, exists got, ReadFrame defs buf (map ReadReport (as_reads sent)) = Ret ([], got, inl got)
         /\ forall sp k, exists fr, read_n (List.length ps + k) (mkSlice got sp)
              = Ret (fr, map (fun p => (p, None)) ps ++ repeat ([], Some EOF) k).
Proof.
  intros U SZ H NE. destruct (raw_frame defs w U SZ NE) as (sent & W & R).
  exists sent. split; [exact W|]. intros buf. destruct (R buf) as (got & P & RD).
  exists got. split; [exact RD|]. intros sp k. apply stream_read. eapply padded_stream; eauto.
Qed.

Lemma written_stream ps :
  Forall writable ps -> ps <> [] ->
  stream ps (write_all NewPacketWriter ps) /\ write_all NewPacketWriter ps <> [].
Proof.
  intros H NE. destruct (write_all_app NewPacketWriter ps) as (w & E & Hs). rewrite E. cbn.
  specialize (Hs H). split; [exact Hs|].
  destruct Hs as [|f p w' ps' rest F (h & c & -> & _ & _) Hs]; [congruence|].
  destruct f; discriminate.
Qed.
