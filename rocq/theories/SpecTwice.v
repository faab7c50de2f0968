(** Specification of reports that arrive more than once (C104).  Uses the report and packet formats only. *)
From Verif Require Import Base Packet SpecPacket Hid SpecHid SpecWire SpecDamage SpecLoss.

(** [echoed defs sent arrived pss]: of the frames sent, given by their reports, [arrived] is what reaches the
    server; nothing is lost, but reports come again; [pss] are the packets that count, frame by frame.
    - A frame may come once; it may be given up before its last report and sent again from the start;
      either way it counts once.
    - Its last report, with any of those between it and the first, may come again after it: that does not
      count, if there is no start byte in them.
    - The whole frame may come again: then it counts twice. *)
Inductive echoed (defs : list ReportDef) : list (list Report) -> list Report -> list (list bytes) -> Prop :=
| echoed_end : echoed defs [] [] []
| echoed_once rs f ps sent arrived pss :
    carries defs rs f -> stream ps f -> echoed defs sent arrived pss ->
    echoed defs (rs :: sent) (rs ++ arrived) (ps :: pss)
| echoed_restarted rs last f ps left sent arrived pss :
    carries defs (rs ++ [last]) f -> stream ps f -> some_of left rs -> echoed defs sent arrived pss ->
    echoed defs ((rs ++ [last]) :: sent) (left ++ (rs ++ [last]) ++ arrived) (ps :: pss)
| echoed_tail first rs last f ps left cs sent arrived pss :
    carries defs (first :: rs ++ [last]) f -> stream ps f -> some_of left rs ->
    Forall2 (contributes defs) (left ++ [last]) cs -> filler (List.concat cs) -> echoed defs sent arrived pss ->
    echoed defs ((first :: rs ++ [last]) :: sent) ((first :: rs ++ [last]) ++ left ++ [last] ++ arrived) (ps :: pss)
| echoed_twice rs f ps sent arrived pss :
    carries defs rs f -> stream ps f -> echoed defs sent arrived pss ->
    echoed defs (rs :: sent) (rs ++ rs ++ arrived) (ps :: ps :: pss).
