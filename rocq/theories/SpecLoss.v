(** Specification of reports lost on the way (C101).  Uses the report and packet formats only. *)
From Verif Require Import Base Packet SpecPacket Hid SpecHid SpecWire SpecDamage.

(** [carries defs rs f]: the reports [rs] are one frame [f] as the protocol wants it: the first report
    starts it, the last and no other ends it, all have ids of the table and a size that the device file
    can pass on. *)
Inductive carries (defs : list ReportDef) (rs : list Report) (f : bytes) : Prop :=
| carries_intro cs :
    (exists first rest, rs = first :: rest /\ starts first /\ Forall (fun r => ~ starts r) rest) ->
    (exists before last, rs = before ++ [last] /\ ends last /\ Forall (fun r => ~ ends r) before) ->
    Forall (fun r => 1 <= List.length (rep_Data r) <= 1022) rs ->
    Forall2 (contributes defs) rs cs -> f = List.concat cs -> carries defs rs f.

(** [some_of l' l]: [l'] is what is left of [l] when any of its members are lost. *)
Inductive some_of {A} : list A -> list A -> Prop :=
| some_none : some_of [] []
| some_kept x l' l : some_of l' l -> some_of (x :: l') (x :: l)
| some_lost x l' l : some_of l' l -> some_of l' (x :: l).

(** Nothing follows, or what follows starts a frame. *)
Definition starts_afresh (rs : list Report) : Prop :=
  match rs with [] => True | r :: _ => starts r end.

(** [passes defs sent arrived pss]: of the frames sent, given by their reports, [arrived] is what reaches
    the server; [pss] are the packets of the frames that reach it whole.
    - A frame whose reports all arrive counts, with those of its packets that are not damaged (C100).
    - A frame whose last report is lost, with any others, does not count; what follows must start a frame.
    - A frame whose first report is lost, with any others, but not the last, does not count; there must be
      no start byte in what is left of it. *)
Inductive passes (defs : list ReportDef) : list (list Report) -> list Report -> list (list bytes) -> Prop :=
| passes_end : passes defs [] [] []
| passes_whole rs f ps ps' sent arrived pss :
    carries defs rs f -> damaged ps f ps' -> passes defs sent arrived pss ->
    passes defs (rs :: sent) (rs ++ arrived) (ps' :: pss)
| passes_unfinished rs last f left sent arrived pss :
    carries defs (rs ++ [last]) f -> some_of left rs -> starts_afresh arrived -> passes defs sent arrived pss ->
    passes defs ((rs ++ [last]) :: sent) (left ++ arrived) pss
| passes_headless first rs last f left cs sent arrived pss :
    carries defs (first :: rs ++ [last]) f -> some_of left rs ->
    Forall2 (contributes defs) (left ++ [last]) cs -> filler (List.concat cs) -> passes defs sent arrived pss ->
    passes defs ((first :: rs ++ [last]) :: sent) (left ++ [last] ++ arrived) pss.

(** The reports as the reads of the device file. *)
Definition as_read (r : Report) : raw_read := (report_bytes r, None).
