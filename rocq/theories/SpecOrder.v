(** Specification of requests whose place in a session does not matter (C109).  Bytes only. *)
From Verif Require Import Base.

(** Packets that are tied to their place: identification in its three versions, what enters, leaves and
    asks for the mode of the user interface (in two ways), a section of the certificate, the end of
    identification, the question for the state of the player. *)
Definition tied : list bytes :=
  [[x00; x00]; [x00; x03]; [x00; x05]; [x00; x06]; [x00; x13]; [x00; x15]; [x00; x35]; [x00; x38]; [x00; x3b]; [x03; x0c]].

(** All others, be they requests or not. *)
Definition free (p : bytes) : Prop := ~ In (firstn 2 p) tied.

(** All of them, if none is missing. *)
Fixpoint all_there {A} (l : list (option A)) : option (list A) :=
  match l with
  | [] => Some []
  | None :: _ => None
  | Some x :: l' => match all_there l' with None => None | Some r => Some (x :: r) end
  end.
