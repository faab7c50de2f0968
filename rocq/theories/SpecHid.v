(** Specification of HID framing, independent of the encoder and decoder loops.
    Uses only the record types of reports and report definitions. *)
From Verif Require Import Base Hid.

(** ** Tables *)

(** A report of definition [d] can hold [n] bytes in direction [dir]. *)
Definition fits (dir : N) (n : Z) (d : ReportDef) : Prop :=
  def_Dir d = dir /\ (n + 1 <= def_Len d)%Z.

(** [d] is the first definition that holds [n] bytes. *)
Definition first_fit (defs : list ReportDef) (dir : N) (n : Z) (d : ReportDef) : Prop :=
  exists a b, defs = a ++ d :: b /\ fits dir n d /\ Forall (fun x => ~ fits dir n x) a.

(** [d] is the last definition of direction [dir]. *)
Definition last_of (defs : list ReportDef) (dir : N) (d : ReportDef) : Prop :=
  exists a b, defs = a ++ d :: b /\ def_Dir d = dir /\ Forall (fun x => def_Dir x <> dir) b.

Definition none_of (defs : list ReportDef) (dir : N) : Prop := Forall (fun x => def_Dir x <> dir) defs.

(** The definition a sender should use for [n] bytes. *)
Definition choice (defs : list ReportDef) (dir : N) (n : Z) (d : ReportDef) : Prop :=
  first_fit defs dir n d \/ (Forall (fun x => ~ fits dir n x) defs /\ last_of defs dir d).

(** A table both ends can work with: unique one-byte ids, and a device-to-accessory fallback
    that carries at least one byte. *)
Definition usable (defs : list ReportDef) : Prop :=
  NoDup (map def_ID defs) /\ Forall (fun d => 0 <= def_ID d <= 255)%Z defs
  /\ exists f, last_of defs 0 f /\ (2 <= def_Len f)%Z.

(** ** Sending *)

(** The payload bytes of a report of definition [d]. *)
Definition room (d : ReportDef) : nat := Z.to_nat (def_Len d - 1).

(** The one-byte id of a definition. *)
Definition id_byte (d : ReportDef) : byte := n2b (Z.to_N (def_ID d mod 256)).

(** [segments defs first data rs]: [rs] is the report sequence of [data]; [first]: no report
    of the frame has been sent yet. *)
Inductive segments (defs : list ReportDef) : bool -> bytes -> list Report -> Prop :=
| seg_last first data d :
    data <> [] -> choice defs 0 (Z.of_nat (List.length data)) d -> List.length data <= room d ->
    segments defs first data
      [mkReport (id_byte d) (if first then x00 else x01)
                (data ++ repeat x00 (room d - List.length data))]
| seg_more first chunk rest d rs :
    rest <> [] -> choice defs 0 (Z.of_nat (List.length (chunk ++ rest))) d ->
    List.length chunk = room d -> chunk <> [] ->
    segments defs false rest rs ->
    segments defs first (chunk ++ rest)
      (mkReport (id_byte d) (if first then x02 else x03) chunk :: rs).

(** Offering reports to a writer until it fails. *)
Fixpoint offer {S} (wr : S -> Report -> S * option goerr) (s : S) (rs : list Report)
  : S * option goerr :=
  match rs with
  | [] => (s, None)
  | r :: rs' => let '(s', e) := wr s r in
                match e with Some _ => (s', e) | None => offer wr s' rs' end
  end.

(** The writer that only records what it is given. *)
Definition recorder (l : list Report) (r : Report) : list Report * option goerr := (l ++ [r], None).

(** ** Receiving *)

Definition starts (r : Report) : Prop := rep_LinkControl r = x00 \/ rep_LinkControl r = x02.
Definition ends (r : Report) : Prop := rep_LinkControl r = x00 \/ rep_LinkControl r = x01.
Definition ignored (r : Report) : bool := (3 <? b2n (rep_LinkControl r))%N.

(** [known defs r d]: [d] is the definition a receiver uses for [r]. *)
Definition known (defs : list ReportDef) (r : Report) (d : ReportDef) : Prop :=
  exists a b, defs = a ++ d :: b /\ def_ID d = Z.of_N (b2n (rep_ID r))
    /\ Forall (fun x => def_ID x <> Z.of_N (b2n (rep_ID r))) a.

Definition unknown (defs : list ReportDef) (r : Report) : Prop :=
  Forall (fun x => def_ID x <> Z.of_N (b2n (rep_ID r))) defs.

(** What a report contributes to a frame: its data cut to the definition's size, or nothing if
    its link control has no meaning. *)
Definition contributes (defs : list ReportDef) (r : Report) (c : bytes) : Prop :=
  exists d, known defs r d /\ (1 <= def_Len d)%Z
    /\ c = if ignored r then [] else firstn (room d) (rep_Data r).

(** [frame_of defs rs f]: the reports [rs], read by one ReadFrame, make up the frame [f]: the
    reports before the last starting one do not matter, and without one all of them count. *)
Inductive frame_of (defs : list ReportDef) (rs : list Report) (f : bytes) : Prop :=
| frame_started before r after cs :
    rs = before ++ r :: after -> starts r -> Forall (fun x => ~ starts x) after ->
    Forall2 (contributes defs) (r :: after) cs -> f = List.concat cs -> frame_of defs rs f
| frame_stray cs :
    Forall (fun x => ~ starts x) rs -> Forall2 (contributes defs) rs cs ->
    f = List.concat cs -> frame_of defs rs f.

(** [frame] arrived with fewer than [k] bytes of zero padding. *)
Definition padded (defs : list ReportDef) (frame got : bytes) : Prop :=
  exists k d, In d defs /\ def_Dir d = 0%N /\ k < room d /\ got = frame ++ repeat x00 k.

(** Reading [n] frames in a row with one decoder: remaining input, and the results. *)
Fixpoint read_frames (n : nat) (defs : list ReportDef) (buf : bytes) (input : list (Report + goerr))
  : outcome (list (Report + goerr) * list (bytes + goerr)) :=
  match n with
  | O => Ret (input, [])
  | S n' => do r <- ReadFrame defs buf input;
            let '(input', buf', res) := r in
            do rest <- read_frames n' defs buf' input';
            let '(input'', rs) := rest in Ret (input'', res :: rs)
  end.

(** Writing frames in a row with one encoder and a recording writer; every frame gets as much
    fuel as it has bytes. *)
Fixpoint write_frames (defs : list ReportDef) (l : list Report) (frames : list bytes)
  : option (outcome (list Report * list (option goerr))) :=
  match frames with
  | [] => Some (Ret (l, []))
  | f :: frames' =>
      match WriteFrame (List.length f) defs recorder l f with
      | Some (Ret (l', e)) =>
          match write_frames defs l' frames' with
          | Some (Ret (l'', es)) => Some (Ret (l'', e :: es))
          | other => other
          end
      | Some Panic => Some Panic
      | None => None
      end
  end.

(** A device that keeps packets apart: what is written in one Write is read by one Read. *)
Definition packet_device (sent : list bytes) (p : bytes) : list bytes * (nat * option goerr) :=
  (sent ++ [p], (List.length p, None)).

Definition as_reads (sent : list bytes) : list raw_read := map (fun p => (p, None)) sent.

(** The raw report writer on that device, as the encoder's report writer (it cannot panic, since
    the device reports an honest count). *)
Definition raw_writer (sent : list bytes) (r : Report) : list bytes * option goerr :=
  match WriteReport packet_device sent r with
  | Ret x => x
  | Panic => (sent, Some (ErrMsg "panic"))
  end.

(** A report the receiver can use: its id is in the table, with a usable length. *)
Definition live (defs : list ReportDef) (r : Report) : Prop :=
  exists d, known defs r d /\ (1 <= def_Len d)%Z.
