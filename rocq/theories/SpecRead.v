(** Small specification for property C97: reading the server's replies with the library. *)
From Verif Require Import Base GoTypes Types Payload Lingo Command SpecPayload Handlers SpecHandlers.

(** A track information of the extended remote lingo arrives as a structure of its kind, empty when
    the kind has none; every other payload arrives as it was sent. *)
Definition arrives (p : payload) : payload :=
  match p with
  | PExtTrackInfo ty i =>
      if existsb (N.eqb ty) [0; 3; 4]%N then p else PExtTrackInfo ty (IPtr anon_struct [])
  | _ => p
  end.

(** The accessory decodes, in mode [e2], what the server encoded in mode [e]: the command the server
    wrote, with its number if the server's numbers are on. *)
Definition read_back (rt e e2 : bool) (c : command) : Prop :=
  exists b, MarshalCmd rt e c = Ret (e, Ok b)
    /\ UnmarshalCmd rt std_registry e2 b
       = Ret (e2, mkCmd (cmd_id c) (if e then cmd_trx c else None) (option_map arrives (cmd_payload c)), None).

(** It is sent, and decoding it fails. *)
Definition unreadable (rt e e2 : bool) (c : command) : Prop :=
  exists b c' x, MarshalCmd rt e c = Ret (e, Ok b) /\ UnmarshalCmd rt std_registry e2 b = Ret (e2, c', Some x).

(** Information of the display remote lingo about a track that holds text: chapter, artist, album,
    genre, title, composer and lyrics. *)
Definition text_info (c : command) : Prop :=
  exists ty i, cmd_payload c = Some (PDispTrackInfo ty i) /\ (1 <= ty <= 7)%N.

(** The request was decoded from a packet. *)
Definition off_the_wire (rt : bool) (c : command) : Prop :=
  exists e pkt e' x, UnmarshalCmd rt std_registry e pkt = Ret (e', c, x).

(** The request carries a number exactly when numbers are on. *)
Definition numbered_properly (e : bool) (c : command) : Prop := cmd_trx c <> None <-> e = true.
