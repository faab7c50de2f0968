(** Specification of what of a trace file matters to the commands that read it: files written or
    edited by hand. *)
From Verif Require Import Base Handlers Hid Trace SpecTrace Server SpecWire.

(** [is_text content lines]: the lines of a file; the last one may lack its newline. *)
Definition is_text (content : bytes) (lines : list bytes) : Prop :=
  Forall (fun l => ~ In x0a l) lines
  /\ (content = file_of lines
      \/ exists pre last, lines = pre ++ [last] /\ last <> [] /\ content = file_of pre ++ last).

(** [incoming lines xs]: the incoming messages of the lines, [None] standing for a line that is none.
    Blank lines and outgoing messages are left out. *)
Inductive incoming : list bytes -> list (option bytes) -> Prop :=
| inc_end : incoming [] []
| inc_blank l ls xs : dropped l [] -> incoming ls xs -> incoming (l :: ls) xs
| inc_out l t data ls xs : dropped l t -> accepts t 1 data -> incoming ls xs -> incoming (l :: ls) xs
| inc_in l t data ls xs : dropped l t -> accepts t 0 data -> incoming ls xs -> incoming (l :: ls) (Some data :: xs)
| inc_none l t ls xs :
    dropped l t -> t <> [] -> (forall d data, ~ accepts t d data) -> incoming ls xs -> incoming (l :: ls) (None :: xs).

(** A device that reads these messages, and fails where there is none. *)
Definition as_read (x : option bytes) : raw_read :=
  match x with Some d => (firstn 1024 d, None) | None => ([], Some (ErrMsg "no message")) end.

(** What is left of a run of the server but for its transport: its state, with all it has replied. *)
Definition served {S W} (r : io (server S * W)) : io (server S) := go (st, _) <- r; done st.

(** What the send command writes: the messages up to the first that is none or too short. *)
Fixpoint sent_of (xs : list (option bytes)) : list bytes :=
  match xs with
  | Some d :: xs' => if 3 <=? List.length d then firstn 1024 d :: sent_of xs' else []
  | _ => []
  end.

(** [noted rss xs]: the reports of the frames [rss], with lines that are no messages between the
    frames. *)
Inductive noted : list (list Report) -> list (option bytes) -> Prop :=
| noted_end : noted [] []
| noted_none rss xs : noted rss xs -> noted rss (None :: xs)
| noted_frame rs rss xs : noted rss xs -> noted (rs :: rss) (map (fun r => Some (report_bytes r)) rs ++ xs).
