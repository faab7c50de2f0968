(** Specification for property C127. *)
From Verif Require Import Base Hid.

(** The reads of a session are clean: each gives some data and no error, but for io.EOF, without data, as the last. *)
Definition clean_session (l : list raw_read) : Prop :=
  exists datas, Forall (fun d => d <> []) datas
    /\ (l = map (fun d => (d, None)) datas \/ l = map (fun d => (d, None)) datas ++ [([], Some EOF)]).
