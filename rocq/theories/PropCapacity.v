(** Property C116, continued: the memory the decoder takes. *)
From Coq Require Import ZifyBool ZifyNat ZifyN Lia.
From Verif Require Import Mem SpecMem MemFacts MemThms MemServer Base BaseFacts GoTypes Types Payload Lingo Command Handlers SpecHandlers Packet Hid SpecHid HidThms
  Server SpecServer SpecWire SpecHeldMem HeldMemThms.
#[local] Opaque std_registry.

(** Whatever comes from the accessory and however long it goes on, the buffer of the decoder takes no more than a fixed
    number of times the longest frame, in bytes of its reports.  How the buffer grows depends on the version of Go; it is
    only assumed that it grows to at most [a] times what it had and is given.  What it took it keeps. *)
Theorem C116_capacity {S} pol a rt clock (d : DeviceGeneral S) defs B m h reads fuel fuel2 st m' w :
  1 <= a -> (forall c l n, pol c l n <= Nat.max 64 (a * (c + n))) ->
  reachable m -> within B 0 reads ->
  processFrames fuel rt std_registry clock d (mem_transport fuel2 defs pol wire_read wire_write) h (m, (reads, [])) = done (st, (m', w)) ->
  capacity m <= capacity m' <= Nat.max (capacity m) (Nat.max 64 (2 * a * B)).
Proof.
  intros A G R W E. exact (session_capacity pol a A G B _ (Nat.le_max_r _ _) rt std_registry clock d fuel2 defs fuel _ m reads [] st m' w 0 (reachable_ok m R) W (Nat.le_max_l _ _) E).
Qed.
Print Assumptions C116_capacity.

(** Go up to 1.17 is such a version. *)
Theorem C116_growth c l n : go_growth c l n <= Nat.max 64 (2 * (c + n)).
Proof. unfold go_growth. destruct (_ && _)%bool; lia. Qed.
Print Assumptions C116_growth.

(** Finding: the capacity is not given back, so a single long frame is paid for to the end of the session: whatever
    comes after it, there is no session behind which the buffer is smaller. *)
Theorem C116_kept {S} rt clock (d : DeviceGeneral S) defs m h reads fuel fuel2 st m' w :
  reachable m ->
  processFrames fuel rt std_registry clock d (mem_transport fuel2 defs go_growth wire_read wire_write) h (m, (reads, [])) = done (st, (m', w)) ->
  capacity m <= capacity m'.
Proof.
  intros R E. assert (W : forall l cur, within (cur + list_sum (map (fun x => List.length (fst x)) l)) cur l).
  { assert (Z : forall l B cur, cur + list_sum (map (fun x : raw_read => List.length (fst x)) l) <= B -> within B cur l).
    { induction l as [|x l IH]; intros B cur H; [exact I|]. change (list_sum (map _ (x :: l))) with (List.length (fst x) + list_sum (map (fun x : raw_read => List.length (fst x)) l)) in H. cbn [within]. split; [lia|]. apply IH. destruct (ends_frame x); lia. }
    intros l cur. apply Z. apply Nat.le_refl. }
  exact (proj1 (C116_capacity go_growth 2 rt clock d defs _ m h reads fuel fuel2 st m' w (Nat.le_succ_diag_r 1) C116_growth R (W reads 0) E)).
Qed.
Print Assumptions C116_kept.

(** A session with one frame of 3 reports and one of a single report; the buffer took 190 bytes for the first, of 140. *)
Definition reads116 : list raw_read :=
  map (fun b => (b, None)) [[x09; x02] ++ repeat x00 62; [x09; x03] ++ repeat x00 62; [x09; x01] ++ repeat x00 10; [x09; x00; x55; x02; x00; x05; xf9]].
Example C116_capacity_case :
  within 140 0 reads116 /\ (exists st w m', processFrames 9 true std_registry (fun _ => (2020, 1, 2, 3, 4)%N) DevGeneral_device
      (mem_transport 9 DefaultReportDefs go_growth wire_read wire_write) (mkH DevGeneral_init [] 0 0 []) (new_mem, (reads116, [])) = done (st, (m', w))
    /\ capacity m' = 190).
Proof.
  split; [repeat (split; [apply Nat.leb_le; reflexivity|]); exact I|]. do 3 eexists. split; [vm_compute; reflexivity|]. vm_compute. reflexivity.
Qed.
