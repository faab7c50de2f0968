(** Property C98: the log a crash leaves behind. *)
From Coq Require Import Ascii.
From Verif Require Import Base Text SpecText GoTypes Types Payload Lingo Command SpecPayload SpecCommand Handlers SpecHandlers
  Packet SpecPacket Hid SpecHid Trace Server SpecServer PropServer SpecSession Log SpecLog PropLog LogKept SpecKept KeptThms.
Local Open Scope string_scope.
Local Open Scope list_scope.

(** ** C98 *)

(** Keeping the log does not change what the server does, crashes included, and when it ends the log is
    that of C87. *)
Theorem C98_same_run {W} errText sdump certLog rt clock (tp : transport W) fuel st w :
  snd (processFrames_kept fuel errText sdump certLog rt std_registry clock tp st w)
    = processFrames_loop fuel rt std_registry clock DevGeneral_device tp st w
  /\ (forall st' w' l, processFrames_log fuel errText sdump certLog rt std_registry clock tp st w = done (st', w', l) ->
        processFrames_kept fuel errText sdump certLog rt std_registry clock tp st w = (l, done (st', w'))).
Proof.
  split; [apply kept_same|]. intros st' w' l E.
  pose proof (frames_kept errText sdump certLog rt std_registry clock tp fuel st w) as F. rewrite E in F. exact F.
Qed.
Print Assumptions C98_same_run.

(** The log of a server that crashes tells the run up to the crash, and nothing else. *)
Theorem C98_cut_short {W} errText sdump certLog rt clock (tp : transport W) fuel st w l :
  sound st -> sturdy tp ->
  processFrames_kept fuel errText sdump certLog rt std_registry clock tp st w = (l, Some Panic) ->
  cut_short errText sdump certLog rt clock tp st w l
  /\ (forall l2, cut_short errText sdump certLog rt clock tp st w l2 -> l2 = l).
Proof.
  intros S T E. pose proof (kept_cut _ _ _ _ _ _ _ _ _ _ S T E) as C. split; [exact C|].
  intros l2 C2. exact (cut_unique _ _ _ _ _ _ _ _ _ C2 _ C).
Qed.
Print Assumptions C98_cut_short.

(** The last frame in the log is the one that crashed the server, and the last entry tells how: it is a
    packet read without error if decoding that packet crashed, and otherwise a packet was cut off. *)
Theorem C98_last_frame {W} errText sdump certLog rt clock (tp : transport W) fuel st w l :
  sound st -> sturdy tp ->
  processFrames_kept fuel errText sdump certLog rt std_registry clock tp st w = (l, Some Panic) ->
  exists st' w' w1 fr evs x before r after,
    rounds rt std_registry clock DevGeneral_device tp st w st' w' /\ tp_ReadFrame tp w' = done (w1, inl fr)
    /\ breaks rt (spare fr) (sv_mode st') (vis fr) evs x
    /\ l = before ++ r :: after
    /\ sized_entry errText "<< FRAME" (len (vis fr)) None r
    /\ Forall (fun r => lr_Message r <> "<< FRAME") after
    /\ (ends_with_packet after <-> x <> None).
Proof. exact (kept_last errText sdump certLog rt clock tp fuel st w l). Qed.
Print Assumptions C98_last_frame.

(** A frame with a request for the name; then one with the same request and an application launch
    without its name, whose decoding crashes; or with a packet of length 5 of which two bytes are there. *)
Definition bad_launch : slice := mkSlice (vis (frame_with [[x00; x07]]) ++ [x55; x02; x00; x64; x9a]) [].
Definition cut_off : slice := mkSlice (vis (frame_with [[x00; x07]]) ++ [x55; x05; x00; x07]) [].
Definition name_request_log : list log_rec :=
  [mkRec 4 "<< PACKET" [("len", "2")]; mkRec 4 "<< CMD" [("id", "0x00,0x07"); ("trx", "<nil>"); ("type", "*general.RequestiPodName")]].
Definition first_frame_log : list log_rec :=
  mkRec 4 "<< FRAME" [("len", "7")] :: name_request_log
  ++ [mkRec 4 ">> CMD" [("id", "0x00,0x08"); ("trx", "<nil>"); ("type", "*general.ReturniPodName")];
      mkRec 4 ">> PACKET" [("len", "14")]; mkRec 4 ">> FRAME" [("len", "17")]].
Example C98_case :
  sound (st0 false) /\ sturdy script
  /\ processFrames_kept 3 errText0 (fun _ => "") (fun _ => []) true std_registry clock0 script (st0 false)
       ([inl (frame_with [[x00; x07]]); inl bad_launch], [])
     = (first_frame_log ++ mkRec 4 "<< FRAME" [("len", "12")] :: name_request_log ++ [mkRec 4 "<< PACKET" [("len", "2")]], Some Panic)
  /\ processFrames_kept 3 errText0 (fun _ => "") (fun _ => []) true std_registry clock0 script (st0 false)
       ([inl (frame_with [[x00; x07]]); inl cut_off], [])
     = (first_frame_log ++ mkRec 4 "<< FRAME" [("len", "11")] :: name_request_log, Some Panic).
Proof.
  split; [exact ServerThms.sound_init|]. split.
  - split; [intros [[|x ins] o]; discriminate|intros w f; do 2 eexists; reflexivity].
  - split; vm_compute; reflexivity.
Qed.
