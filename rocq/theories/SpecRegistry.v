(** Specification of registering commands (C119). *)
From Verif Require Import Base GoTypes Types Payload Lingo Command.

(** The tables of the lingo packages, by lingo. *)
Definition shipped : list (N * list (string * pty)) :=
  [(10, audio_Lingos); (3, disp_Lingos); (4, ext_Lingos); (0, general_Lingos); (2, simple_Lingos)]%N.

(** The registry behind RegisterLingos of the tables, in the order given. *)
Definition registering (order : list (N * list (string * pty))) : registry :=
  fold_left (fun reg x => fst (RegisterLingos reg (fst x) (snd x))) order [].

(** Registries the lookups cannot tell apart. *)
Definition same_lookups (r1 r2 : registry) : Prop :=
  (forall id n mode, Lookup r1 id n mode = Lookup r2 id n mode) /\ (forall p, LookupID r1 p = LookupID r2 p).

(** The lingo of an id, and the registrations of one lingo. *)
Definition lingo_part (id : N) : N := (id / 65536)%N.
Definition of_lingo (l : N) (reg : registry) : registry := filter (fun e => (lingo_part (fst e) =? l)%N) reg.

(** The lingos the server hands on to a handler. *)
Definition handled (l : N) : Prop := In l [0; 3; 4; 10]%N.

(** Registrations beyond those shipped: new ids in lingos without a handler, for types of their own. *)
Definition foreign (ext : registry) : Prop :=
  forall id t, In (id, t) ext ->
    ~ handled (lingo_part id) /\ ~ In id (map fst std_registry) /\ ~ In t (map snd std_registry).
