(** Small specification for property C106: packets that a program built on the library takes apart and
    puts together again. *)
From Verif Require Import Base GoTypes Types Payload Lingo Command SpecPayload SpecCommand.

(** A packet [p] that arrives in mode [e] is decoded, and the command, whether it is known or not, is
    encoded again in the mode [e'] that holds then. *)
Definition relayed (rt e : bool) (p : bytes) (e' : bool) (c : command) (q : bytes) : Prop :=
  exists x, UnmarshalCmd rt std_registry e p = Ret (e', c, x) /\ MarshalCmd rt e' c = Ret (e', Ok q).

(** Identify tokens with at most 244 lingoes: all that arrive complete, since a token has at most 255
    bytes and 11 of them are not lingoes. *)
Definition complete_tokens (p : payload) : Prop :=
  match p with
  | PTokens l => forall a b lingoes o d, In (mkTV a b (TokIdentify lingoes o d)) l -> List.length lingoes <= 244
  | _ => True
  end.

(** Nothing gets lost: the command has no number while numbers are off, and its tokens are complete. *)
Definition faithful (e : bool) (c : command) : Prop :=
  (cmd_trx c = None \/ e = true) /\ forall p, cmd_payload c = Some p -> complete_tokens p.

(** The same for the packets of a frame and for the frames of a session. *)
Inductive relays (rt : bool) : bool -> list bytes -> bool -> list bytes -> Prop :=
| rl_nil e : relays rt e [] e []
| rl_cons e p e1 c q ps e2 qs :
    relayed rt e p e1 c q -> faithful e1 c -> relays rt e1 ps e2 qs -> relays rt e (p :: ps) e2 (q :: qs).

Inductive relays_all (rt : bool) : bool -> list (list bytes) -> bool -> list (list bytes) -> Prop :=
| ra_nil e : relays_all rt e [] e []
| ra_cons e ps e1 qs pss e2 qss :
    relays rt e ps e1 qs -> relays_all rt e1 pss e2 qss -> relays_all rt e (ps :: pss) e2 (qs :: qss).

(** A packet in the form in which the library writes it. *)
Definition in_wire_form (p : bytes) (c : command) : Prop :=
  exists pay b, cmd_payload c = Some pay /\ payload_wire pay b
    /\ p = id_prefix (cmd_id c) ++ match cmd_trx c with Some t => trx_bytes t | None => [] end ++ b.
