(** The command line tool as it is seen on the wire: what it answers to every packet, in bytes.
    Uses only lists of bytes; nothing here refers to the program. *)
From Verif Require Import Base.

(** ** What the tool remembers and shows *)

(** Whether transaction numbers are in use, whether the user interface is in extended mode, the
    last transaction number the tool used itself, and how often it has looked at the clock. *)
Record memory := mkMemory { numbered : bool; extended : bool; last_number : N; readings : nat }.

(** A reply: its identifier, the transaction number in it if there is one, its content; or a
    reply that cannot be put into bytes, of which nothing is sent. *)
Inductive reply :=
| Reply (id : bytes) (transaction : option bytes) (content : bytes)
| Unsendable.

(** The payload of a reply's packet. *)
Definition reply_bytes (numbers : bool) (r : reply) : bytes :=
  match r with
  | Reply id (Some t) content => id ++ (if numbers then t else []) ++ content
  | Reply id None content => id ++ content
  | Unsendable => []
  end.

(** The frame of a payload: start byte, length, payload, check sum.  A payload of 256 bytes gets a
    length byte of 0 and no length behind it. *)
Definition byte_sum (l : bytes) : N := fold_right (fun b n => (b2n b + n)%N) 0%N l.
Definition frame_bytes (p : bytes) : bytes :=
  match p with
  | [] => []
  | _ => let n := len p in
         let h := if (n <=? 256)%N then [n2b n] else [x00; n2b (n / 256); n2b n] in
         x55 :: h ++ p ++ [n2b (256 - byte_sum (h ++ p) mod 256)]
  end.

(** ** Reactions *)

(** What a request leads to: the replies that answer it, and questions of the tool's own. *)
Inductive saying :=
| Answer (id content : bytes)
| CannotAnswer
| Question (id content : bytes).

(** A reaction to a request's content; [None]: the program crashes. *)
Definition reaction := memory -> bytes -> option (memory * list saying).

Definition says (l : list saying) : reaction := fun m _ => Some (m, l).
Definition answers (id content : bytes) : reaction := says [Answer id content].
Definition echoes (id : bytes) (f : bytes -> bytes) : reaction := fun m c => Some (m, [Answer id (f c)]).

Definition c_string (s : string) : bytes := list_byte_of_string s ++ [x00].
Definition zeros (n : nat) : bytes := repeat x00 n.

(** Acknowledgements of the general, display remote and extended remote lingoes. *)
Definition ack0 (status command : byte) : saying := Answer [x00; x02] [status; command].
Definition done0 (command : byte) : reaction := says [ack0 x00 command].
Definition done3 (command : byte) : reaction := answers [x03; x00] [x00; command].
Definition ack4 (status command : byte) : reaction := answers [x04; x00; x01] [status; x00; command].

(** Entering and leaving the extended mode: "pending, 300 ms" before the change. *)
Definition switch (to : bool) (command : byte) : reaction := fun m _ =>
  if Bool.eqb (extended m) to then Some (m, [ack0 x00 command])
  else Some (mkMemory (numbered m) to (last_number m) (readings m),
             [Answer [x00; x02] [x06; command; x00; x00; x01; x2c]; ack0 x00 command]).

(** The device id, the last of three numbers, asks for authentication when it is not zero. *)
Definition identify : reaction := fun m c =>
  Some (m, ack0 x00 x13 :: if forallb (Byte.eqb x00) (skipn 8 c) then [] else [Answer [x00; x14] []]).

(** A section of the accessory's certificate; the last one starts the audio lingo. *)
Definition certificate : reaction := fun m c =>
  match c with
  | major :: _ :: r =>
      if (b2n major <? 2)%N then Some (m, [Question [x0a; x02] []; Answer [x00; x16] [x00]])
      else match r with
           | section :: last :: _ =>
               if (b2n section <? b2n last)%N then Some (m, [ack0 x00 x15])
               else Some (m, [Question [x0a; x02] []; Answer [x00; x16] [x00]; Answer [x00; x17] (zeros 21)])
           | _ => Some (m, [])
           end
  | _ => Some (m, [])
  end.

Definition start_identification : reaction := fun m _ =>
  Some (mkMemory (numbered m) (extended m) 0 (readings m), [ack0 x00 x38]).

Definition end_identification : reaction := fun m c =>
  Some (m, match c with
           | [x00] => [Answer [x00; x3c] [x00]; Question [x00; x14] []]
           | [x01] => [Answer [x00; x3c] [x04]]
           | [x02] => [Answer [x00; x3c] [x06]]
           | _ => []
           end).

Definition launch : reaction := fun m c =>
  if Nat.ltb (List.length c) 3 then None else Some (m, [ack0 x02 x64]).

(** Version of a lingo; options of a lingo. *)
Definition lingo_version (c : bytes) : bytes :=
  c ++ match c with
       | [x00] => [x01; x09] | [x03] => [x01; x05] | [x04] => [x01; x0c] | [x0a] => [x01; x02]
       | _ => [x01; x01]
       end.
Definition lingo_options (c : bytes) : bytes :=
  c ++ match c with [x00] => [x00; x00; x00; x06; x3d; xef; x73; xff] | _ => zeros 8 end.

(** *** Identification tokens *)

(** The acknowledgement of one token, without its length; a token that cannot be read; one of
    which the program knows nothing; one that crashes it. *)
Inductive token_result := Accepted (ack : bytes) | Unreadable | Strange | Crashing.

Definition at_least (n : nat) (l ack : bytes) : token_result :=
  if Nat.ltb (List.length l) n then Unreadable else Accepted ack.

Definition token (t : bytes) : token_result :=
  match t with
  | a :: b :: r =>
      match b2n a, b2n b with
      | 0, 0 => at_least 1 r [a; b; x00]
      | 0, 1 => Accepted [a; b; x00]
      | 0, 2 => match r with
                | i :: _ => if existsb (N.eqb (b2n i)) [1; 4; 5; 6; 7; 8; 9; 11; 12] then Accepted [a; b; x00; i]
                            else Unreadable
                | [] => Unreadable
                end
      | 0, 3 => at_least 3 r [a; b; x00; hd x00 r]
      | 0, 4 => match r with [] => Crashing | i :: _ => Accepted [a; b; x00; i] end
      | 0, 5 => at_least 11 r [a; b; x00]
      | 0, 7 => at_least 14 r [a; b; x00]
      | 0, 8 => at_least 2 r [a; b; x00]
      | 1, _ => at_least 4 r [a; b; x00]
      | _, _ => Strange
      end%N
  | _ => Unreadable
  end.

(** The acknowledgements of [n] tokens, each preceded by its length; [None] in it for one that has
    none.  With [rt] a token of which the program knows nothing crashes it. *)
Inductive tokens_result := AcceptedAll (acks : list (option bytes)) | UnreadableOne | CrashingOne.

Definition and_then (x : option bytes) (r : tokens_result) : tokens_result :=
  match r with AcceptedAll l => AcceptedAll (x :: l) | _ => r end.

Fixpoint tokens (rt : bool) (n : nat) (data : bytes) : tokens_result :=
  match n, data with
  | O, _ => AcceptedAll []
  | S _, [] => UnreadableOne
  | S n', k :: r =>
      let size := N.to_nat (b2n k) in
      match token (firstn size r) with
      | Accepted a => and_then (Some (n2b (len a) :: a)) (tokens rt n' (skipn size r))
      | Unreadable => UnreadableOne
      | Strange => if rt then CrashingOne else and_then None (tokens rt n' (skipn size r))
      | Crashing => CrashingOne
      end
  end.

Definition identification (rt : bool) : reaction := fun m c =>
  match c with
  | [] => Some (m, [])
  | n :: r =>
      match tokens rt (N.to_nat (b2n n)) r with
      | CrashingOne => None
      | UnreadableOne => Some (m, [])
      | AcceptedAll l =>
          if forallb (fun a => match a with Some _ => true | None => false end) l
          then Some (m, [Answer [x00; x3a] (n2b (len l) :: flat_map (fun a => match a with Some b => b | None => [] end) l)])
          else Some (m, [CannotAnswer])
      end
  end.

(** *** The player *)

(** Display remote: state of the player, by info type. *)
Definition states : list (byte * bytes) :=
  [(x00, zeros 4); (x01, [x00; x00; x00; x01]); (x02, zeros 8); (x03, [x01]); (x04, [x00; xff]);
   (x05, [x05; xff]); (x06, zeros 4); (x07, [x00]); (x08, [x00]); (x0b, [xff]); (x0c, [x00]);
   (x0d, [x00]); (x0e, [x00]); (x0f, [x00; x00]); (x10, [x00; xff; xff])].

(** Year, month, day, hour, minute. *)
Definition date := (N * N * N * N * N)%type.
Definition date_wire (d : date) : bytes :=
  let '(y, mo, da, ho, mi) := d in [n2b (y / 256); n2b y; n2b mo; n2b da; n2b ho; n2b mi].

Definition player_state (clock : nat -> date) : reaction := fun m c =>
  match c with
  | [x09] => Some (mkMemory (numbered m) (extended m) (last_number m) (readings m + 1),
                   [Answer [x03; x0d] (x09 :: date_wire (clock (readings m)))])
  | [ty] => Some (m, match find (fun s => Byte.eqb ty (fst s)) states with
                     | Some (_, value) => [Answer [x03; x0d] (ty :: value)]
                     | None => []
                     end)
  | _ => Some (m, [])
  end.

(** Display remote: info on a track; texts are not sent. *)
Definition track_display : reaction := fun m c =>
  match c with
  | x00 :: _ => Some (m, [Answer [x03; x13] (x00 :: zeros 4 ++ [x00; x04; x93; xe0] ++ zeros 2)])
  | x08 :: _ => Some (m, [Answer [x03; x13] [x08; x08]])
  | ty :: _ => Some (m, if (b2n ty <? 8)%N then [Answer [x03; x13] [ty]] else [])
  | [] => Some (m, [])
  end.

(** Extended remote: info on a track. *)
Definition track_extended : reaction := echoes [x04; x00; x0d] (fun c =>
  match c with
  | ty :: _ => ty :: match ty with
                     | x00 => zeros 4 ++ [x00; x04; x93; xe0] ++ [x00; x01]
                     | x03 | x04 => zeros 4
                     | x07 => []
                     | _ => [x00]
                     end
  | [] => []
  end).

(** ** Requests *)

(** Identifier, size of the content ([None]: any), reaction. *)
Definition request := (bytes * option nat * reaction)%type.

Definition requests (rt : bool) (clock : nat -> date) : list request :=
  [(** general *)
   ([x00; x03], Some 0, fun m _ => Some (m, [Answer [x00; x04] [if extended m then x01 else x00]]));
   ([x00; x05], Some 0, switch true x05);
   ([x00; x06], Some 0, switch false x06);
   ([x00; x07], Some 0, answers [x00; x08] (c_string "ipod-gadget"));
   ([x00; x09], Some 0, answers [x00; x0a] [x07; x01; x02]);
   ([x00; x0b], Some 0, answers [x00; x0c] (c_string "abcd1234"));
   ([x00; x0d], Some 0, answers [x00; x0e] ([x00; x11; x13; x49] ++ c_string "MC676"));
   ([x00; x0f], Some 1, echoes [x00; x10] lingo_version);
   ([x00; x11], Some 0, answers [x00; x12] [xff; xff]);
   ([x00; x13], Some 12, identify);
   ([x00; x15], None, certificate);
   ([x00; x18], None, answers [x00; x19] [x00]);
   ([x00; x1a], Some 0, says [CannotAnswer]);
   ([x00; x1d], Some 21, echoes [x00; x1e] (firstn 20));
   ([x00; x24], Some 0, answers [x00; x25] (zeros 8));
   ([x00; x29], Some 1, echoes [x00; x2a] (fun c => c ++ [x00]));
   ([x00; x2b], Some 3, done0 x2b);
   ([x00; x35], Some 0, fun m _ => Some (m, [Answer [x00; x36] [if extended m then x01 else x00]]));
   ([x00; x37], Some 1, done0 x37);
   ([x00; x38], Some 0, start_identification);
   ([x00; x39], None, identification rt);
   ([x00; x3b], Some 1, end_identification);
   ([x00; x49], Some 8, done0 x49);
   ([x00; x4b], Some 1, echoes [x00; x4c] lingo_options);
   ([x00; x4d], Some 0, answers [x00; x4e] (zeros 8));
   ([x00; x4f], Some 0, answers [x00; x51] (zeros 8));
   ([x00; x50], Some 5, done0 x50);
   ([x00; x64], None, launch);
   ([x00; x65], Some 0, says [CannotAnswer]);
   (** display remote *)
   ([x03; x01], Some 0, answers [x03; x02] (zeros 4));
   ([x03; x03], Some 5, done3 x03);
   ([x03; x04], Some 0, answers [x03; x05] [x00; x00; x00; x01]);
   ([x03; x06], Some 4, says [CannotAnswer]);
   ([x03; x08], Some 4, done3 x08);
   ([x03; x0a], Some 0, answers [x03; x0b] (zeros 4));
   ([x03; x0c], Some 1, player_state clock);
   ([x03; x0e], Some 2, done3 x0e);
   ([x03; x0f], Some 0, answers [x03; x10] (zeros 13));
   ([x03; x11], Some 4, done3 x11);
   ([x03; x12], Some 7, track_display);
   ([x03; x14], Some 0, answers [x03; x15] (zeros 4));
   ([x03; x16], Some 0, says [CannotAnswer]);
   ([x03; x1a], Some 0, answers [x03; x1b] [x01; xff]);
   ([x03; x1c], Some 0, answers [x03; x1d] [x00]);
   ([x03; x1e], Some 2, done3 x1e);
   ([x03; x1f], Some 10, says [CannotAnswer]);
   (** extended remote *)
   ([x04; x00; x02], Some 0, answers [x04; x00; x03] [x00; x00; x00; x00; x00; x00; x00; x01]);
   ([x04; x00; x04], Some 4, ack4 x00 x04);
   ([x04; x00; x05], Some 4, answers [x04; x00; x06] (zeros 8));
   ([x04; x00; x07], Some 4, says [CannotAnswer]);
   ([x04; x00; x09], Some 0, answers [x04; x00; x0a] [x00]);
   ([x04; x00; x0b], Some 1, ack4 x00 x0b);
   ([x04; x00; x0c], Some 7, track_extended);
   ([x04; x00; x0e], Some 0, answers [x04; x00; x0f] []);
   ([x04; x00; x10], Some 10, ack4 x02 x10);
   ([x04; x00; x16], Some 0, ack4 x00 x16);
   ([x04; x00; x17], Some 5, ack4 x00 x17);
   ([x04; x00; x18], Some 1, answers [x04; x00; x19] [x00; x00; x00; x01]);
   ([x04; x00; x1a], Some 9, answers [x04; x00; x1b] (zeros 20));
   ([x04; x00; x1c], Some 0, answers [x04; x00; x1d] ([x00; x04; x93; xe0] ++ [x00; x00; x4e; x20] ++ [x02]));
   ([x04; x00; x1e], Some 0, answers [x04; x00; x1f] (zeros 4));
   ([x04; x00; x20], Some 4, answers [x04; x00; x21] (c_string "title"));
   ([x04; x00; x22], Some 4, answers [x04; x00; x23] (c_string "artist"));
   ([x04; x00; x24], Some 4, answers [x04; x00; x25] (c_string "album"));
   ([x04; x00; x26], Some 4, ack4 x00 x26);
   ([x04; x00; x26], Some 1, ack4 x00 x26);
   ([x04; x00; x28], Some 4, ack4 x00 x28);
   ([x04; x00; x29], Some 1, ack4 x00 x29);
   ([x04; x00; x2a], Some 10, answers [x04; x00; x2b] []);
   ([x04; x00; x2c], Some 0, answers [x04; x00; x2d] [x00]);
   ([x04; x00; x2e], Some 1, ack4 x00 x2e);
   ([x04; x00; x2f], Some 0, answers [x04; x00; x30] [x00]);
   ([x04; x00; x31], Some 1, ack4 x00 x31);
   ([x04; x00; x32], Some 0, ack4 x00 x32);
   ([x04; x00; x33], Some 0, answers [x04; x00; x34] [x02; x80; x03; xc0; x01]);
   ([x04; x00; x35], Some 0, answers [x04; x00; x36] [x00; x00; x00; x01]);
   ([x04; x00; x39], Some 0, answers [x04; x00; x3a] [x02; x80; x03; xc0; x01]);
   ([x04; x00; x3b], Some 1, ack4 x02 x3b);
   (** audio: 44100 Hz *)
   ([x0a; x03], None, answers [x0a; x04] ([x00; x00; xac; x44] ++ zeros 8))].

(** ** Packets *)

(** Identifier and body of a payload: three bytes of identifier in the extended remote lingo, two
    in all others. *)
Definition split_id (p : bytes) : option (bytes * bytes) :=
  let n := match p with x04 :: _ => 3 | _ => 2 end in
  if Nat.ltb (List.length p) n then None else Some (firstn n p, skipn n p).

(** Transaction number and content of a body.  A body of a request's size has no number, one that
    is two bytes longer has one, whatever the mode; otherwise the mode decides, and what exceeds the
    size is dropped.  [None]: too short. *)
Definition take_number (numbers : bool) (b : bytes) : option (option bytes * bytes) :=
  if numbers then if Nat.ltb (List.length b) 2 then None else Some (Some (firstn 2 b), skipn 2 b)
  else Some (None, b).

Definition size_fits (n : nat) (b : bytes) : bool :=
  Nat.eqb (List.length b) n || Nat.eqb (List.length b) (n + 2).

Definition understand (numbers : bool) (rs : list request) (b : bytes)
  : option (option bytes * bytes * reaction) :=
  match find (fun r => match snd (fst r) with Some n => size_fits n b | None => false end) rs with
  | Some (_, Some n, f) =>
      if Nat.eqb (List.length b) n then Some (None, b, f) else Some (Some (firstn 2 b), skipn 2 b, f)
  | _ =>
      match rs with
      | [(_, size, f)] =>
          match take_number numbers b, size with
          | Some (t, c), None => Some (t, c, f)
          | Some (t, c), Some n => if Nat.ltb (List.length c) n then None else Some (t, firstn n c, f)
          | None, _ => None
          end
      | _ => None
      end
  end.

(** Commands of the general lingo that the program knows, by the second byte of the identifier;
    those of 2 (acknowledgement) and 23 (signature request) are known in certain sizes only. *)
Definition known_general : list N :=
  [0; 3; 4; 5; 6; 7; 8; 9; 10; 11; 12; 13; 14; 15; 16; 17; 18; 19; 20; 21; 22; 24; 25; 26; 27; 28;
   29; 30; 31; 35; 36; 37; 39; 40; 41; 42; 43; 53; 54; 55; 56; 57; 58; 59; 60; 63; 64; 65; 66; 67; 70; 71; 72; 73;
   74; 75; 76; 77; 78; 79; 80; 81; 84; 100; 101; 102]%N.
Definition known_sizes (command : byte) : list nat :=
  match command with x02 => [2; 4; 6; 8; 10] | x17 => [17; 19; 21; 23] | _ => [] end.

Definition strange_command (id b : bytes) : bool :=
  match id with
  | [x00; c] => negb (existsb (N.eqb (b2n c)) known_general)
                && negb (existsb (Nat.eqb (List.length b)) (known_sizes c))
  | _ => false
  end.

(** Two commands switch transaction numbers off, one switches them on. *)
Definition switched (numbers : bool) (id : bytes) : bool :=
  match id with [x00; x00] | [x00; x13] => false | [x00; x38] => true | _ => numbers end.

(** The number the tool uses next. *)
Definition next_number (n : N) : N := ((n + 1) mod 2 ^ 32)%N.
Definition number_bytes (n : N) : bytes := [n2b (n / 256); n2b n].

(** Put numbers on what is said: answers get the request's, questions the tool's own. *)
Fixpoint with_numbers (t : option bytes) (n : N) (l : list saying) : N * list reply :=
  match l with
  | [] => (n, [])
  | Answer id c :: l' => let '(n', rs) := with_numbers t n l' in (n', Reply id t c :: rs)
  | CannotAnswer :: l' => let '(n', rs) := with_numbers t n l' in (n', Unsendable :: rs)
  | Question id c :: l' =>
      let n1 := next_number n in
      let '(n', rs) := with_numbers t n1 l' in (n', Reply id (Some (number_bytes n1)) c :: rs)
  end.

(** What the tool does on receiving the payload of a packet; [None]: it crashes. *)
Definition receive (rt : bool) (clock : nat -> date) (m : memory) (p : bytes) : option (memory * list reply) :=
  match split_id p with
  | None => Some (m, [])
  | Some (id, b) =>
      let m := mkMemory (switched (numbered m) id) (extended m) (last_number m) (readings m) in
      let rs := filter (fun r => if list_eq_dec Byte.byte_eq_dec id (fst (fst r)) then true else false) (requests rt clock) in
      match understand (numbered m) rs b with
      | Some (t, c, f) =>
          match f m c with
          | None => None
          | Some (m1, l) =>
              let '(n, replies) := with_numbers t (last_number m1) l in
              Some (mkMemory (numbered m1) (extended m1) n (readings m1), replies)
          end
      | None => Some (m, if strange_command id b then [Reply [x00; x02] None [x05; nth 1 id x00]] else [])
      end
  end.

(** Several packets. *)
Fixpoint receive_all (rt : bool) (clock : nat -> date) (m : memory) (ps : list bytes)
  : option (memory * list reply) :=
  match ps with
  | [] => Some (m, [])
  | p :: ps' =>
      match receive rt clock m p with
      | None => None
      | Some (m1, l1) =>
          match receive_all rt clock m1 ps' with
          | None => None
          | Some (m2, l2) => Some (m2, l1 ++ l2)
          end
      end
  end.

(** A frame: its packets are handled in order, and then the replies are sent, all of them with
    transaction numbers or none, each in a frame of its own. *)
Definition receive_frame (rt : bool) (clock : nat -> date) (m : memory) (ps : list bytes)
  : option (memory * list bytes) :=
  match receive_all rt clock m ps with
  | None => None
  | Some (m', l) => Some (m', map (fun r => frame_bytes (reply_bytes (numbered m') r)) l)
  end.

(** A whole conversation. *)
Fixpoint conversation (rt : bool) (clock : nat -> date) (m : memory) (frames : list (list bytes))
  : option (memory * list bytes) :=
  match frames with
  | [] => Some (m, [])
  | ps :: frames' =>
      match receive_frame rt clock m ps with
      | None => None
      | Some (m1, l1) =>
          match conversation rt clock m1 frames' with
          | None => None
          | Some (m2, l2) => Some (m2, l1 ++ l2)
          end
      end
  end.
