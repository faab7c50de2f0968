(** Specification of what is left of a recording that was cut short (C124). *)
From Verif Require Import Base Hid Trace SpecTrace Server SpecView SpecWire SpecEdit SpecRefuse SpecRefuseTrace.

(** The incoming messages. *)
Definition ins (ms : list Msg) : list (option bytes) := map (fun m => Some (msg_Data m)) (of_dir 0 ms).

(** What may be read of a message [m] whose line is cut: nothing; no message; or, of an incoming one, the beginning. *)
Inductive rest_of (m : Msg) : list (option bytes) -> Prop :=
| rest_nothing : rest_of m []
| rest_bad : rest_of m [None]
| rest_start p q : msg_Dir m = DirIn -> p <> [] -> msg_Data m = p ++ q -> rest_of m [Some p].

(** Of the messages [ms], the first [n] are there whole, and [extra] may be left of the next. *)
Definition cut_after (ms : list Msg) (n : nat) (extra : list (option bytes)) : Prop :=
  n <= List.length ms /\ (extra = [] \/ exists m, nth_error ms n = Some m /\ rest_of m extra).
