(** Specification of trace files, independent of the code's printer, scanner and loops. *)
From Verif Require Import Base Trace.

(** ** Text of a message *)

(** Direction signs. *)
Definition sign (d : N) (c : byte) : Prop := (d = 0%N /\ c = x3c) \/ (d = 1%N /\ c = x3e).

(** Hexadecimal digits and their values. *)
Definition upper_hex (c : byte) (v : N) : Prop :=
  (48 <= b2n c <= 57 /\ v = b2n c - 48)%N \/ (65 <= b2n c <= 70 /\ v = b2n c - 55)%N.
Definition lower_hex (c : byte) (v : N) : Prop := (97 <= b2n c <= 102 /\ v = b2n c - 87)%N.
Definition any_hex (c : byte) (v : N) : Prop := upper_hex c v \/ lower_hex c v.

(** [c1 c2] spells the byte [b] in digits of kind [hex]. *)
Definition spells (hex : byte -> N -> Prop) (b c1 c2 : byte) : Prop :=
  exists v1 v2, hex c1 v1 /\ hex c2 v2 /\ b2n b = (16 * v1 + v2)%N.

(** Upper-case bytes separated by single spaces. *)
Inductive hexes : bytes -> bytes -> Prop :=
| hexes_one b c1 c2 : spells upper_hex b c1 c2 -> hexes [b] [c1; c2]
| hexes_more b c1 c2 data t :
    spells upper_hex b c1 c2 -> hexes data t -> hexes (b :: data) (c1 :: c2 :: x20 :: t).

(** [line_of m t]: [t] is the text of message [m]: a sign, a space, the bytes. *)
Definition line_of (m : Msg) (t : bytes) : Prop :=
  exists c t', sign (msg_Dir m) c /\ hexes (msg_Data m) t' /\ t = c :: x20 :: t'.

(** Messages a trace can hold. *)
Definition recordable (m : Msg) : Prop := (msg_Dir m = 0%N \/ msg_Dir m = 1%N) /\ msg_Data m <> [].

(** Messages that also fit in the reader's line buffer. *)
Definition readable (m : Msg) : Prop := recordable m /\ (len (msg_Data m) <= 21844)%N.

(** ** Accepted lines *)

(** UTF-8 encodings of the white space that may precede the digits (newline excluded). *)
Definition blank_runes : list bytes :=
  [[x09]; [x0b]; [x0c]; [x0d]; [x20]; [xc2; x85]; [xc2; xa0]; [xe1; x9a; x80];
   [xe2; x80; x80]; [xe2; x80; x81]; [xe2; x80; x82]; [xe2; x80; x83]; [xe2; x80; x84]; [xe2; x80; x85];
   [xe2; x80; x86]; [xe2; x80; x87]; [xe2; x80; x88]; [xe2; x80; x89]; [xe2; x80; x8a];
   [xe2; x80; xa8]; [xe2; x80; xa9]; [xe2; x80; xaf]; [xe2; x81; x9f]; [xe3; x80; x80]].

Definition white (w : bytes) : Prop :=
  exists runes, Forall (fun r => In r blank_runes) runes /\ w = List.concat runes.

(** Digit pairs of either case. *)
Inductive pairs : bytes -> bytes -> Prop :=
| pairs_nil : pairs [] []
| pairs_cons b c1 c2 data t : spells any_hex b c1 c2 -> pairs data t -> pairs (b :: data) (c1 :: c2 :: t).

Definition no_digit_first (t : bytes) : Prop :=
  match t with [] => True | c :: _ => forall v, ~ any_hex c v end.

(** [accepts text d data]: the line [text] is read as a message of direction [d] with [data]: a
    sign, any one byte, then (spaces being dropped) white space, digit pairs, and a tail that does
    not start with a digit and is ignored. *)
Definition accepts (text : bytes) (d : N) (data : bytes) : Prop :=
  4 <= List.length text
  /\ exists c x body w digits tail,
       text = c :: x :: body /\ sign d c
       /\ filter (fun b => negb (byte_eqb b x20)) body = w ++ digits ++ tail
       /\ white w /\ pairs data digits /\ data <> [] /\ no_digit_first tail.

(** ** Files *)

(** A file made of newline-terminated lines. *)
Definition file_of (lines : list bytes) : bytes := List.concat (map (fun l => l ++ [x0a]) lines).

(** Reading [n] messages in a row, each into a fresh Msg. *)
Fixpoint read_msgs (n : nat) (r : Reader) : list (Msg * option goerr) :=
  match n with
  | O => []
  | S n' => let '(r', m, e) := ReadMsg r (mkMsg 0 0 []) in (m, e) :: read_msgs n' r'
  end.

(** [dropped l l']: [l'] is [l] without one final carriage return, if it has one. *)
Definition dropped (l l' : bytes) : Prop :=
  l = l' ++ [x0d] \/ (l = l' /\ forall p, l <> p ++ [x0d]).

(** [reads i lines rs]: the results of reading [lines] when the next timestamp is [i]. *)
Inductive reads : N -> list bytes -> list (Msg * option goerr) -> Prop :=
| reads_end i : reads i [] []
| reads_blank i l ls rs : dropped l [] -> reads i ls rs -> reads i (l :: ls) rs
| reads_good i l t d data ls rs :
    dropped l t -> accepts t d data -> reads ((i + 1) mod 2 ^ 64)%N ls rs ->
    reads i (l :: ls) ((mkMsg d i data, None) :: rs)
| reads_bad i l t m e ls rs :
    dropped l t -> t <> [] -> (forall d data, ~ accepts t d data) -> reads i ls rs ->
    reads i (l :: ls) ((m, Some e) :: rs).

(** The results expected for messages read back, timestamps counted from [i]. *)
Fixpoint stamped (i : N) (ms : list Msg) : list (Msg * option goerr) :=
  match ms with
  | [] => []
  | m :: ms' => (mkMsg (msg_Dir m) (i mod 2 ^ 64)%N (msg_Data m), None) :: stamped (i + 1) ms'
  end.

(** The result of a read that fails with [e]. *)
Definition failed (e : goerr) : Msg * option goerr := (mkMsg 0 0 [], Some e).

(** A file that takes every write. *)
Definition append_file : io_write bytes := fun f p => (f ++ p, (List.length p, None)).

(** Writing messages in a row: writer state and errors. *)
Fixpoint write_msgs {S} (w : io_write S) (s : S) (ms : list Msg) : S * list (option goerr) :=
  match ms with
  | [] => (s, [])
  | m :: ms' => let '(s', e) := WriteMsg w s m in
                let '(s'', es) := write_msgs w s' ms' in (s'', e :: es)
  end.

(** ** Sessions on a device *)

Inductive op := OpRead (n : nat) | OpWrite (p : bytes).
Inductive opres := ResRead (got : bytes) (e : option goerr) | ResWrite (n : nat) (e : option goerr).

(** The contract of io.Reader and io.Writer on counts, for successful calls. *)
Definition honest {S} (dev : io_rw S) : Prop :=
  (forall s n s' got, rw_read dev s n = (s', (got, None)) -> List.length got <= n)
  /\ (forall s p s' n, rw_write dev s p = (s', (n, None)) -> n <= List.length p).

(** A session straight on the device. *)
Fixpoint run_dev {S} (dev : io_rw S) (s : S) (ops : list op) : S * list opres :=
  match ops with
  | [] => (s, [])
  | OpRead n :: ops' =>
      let '(s', (got, e)) := rw_read dev s n in
      let '(s'', rs) := run_dev dev s' ops' in (s'', ResRead got e :: rs)
  | OpWrite p :: ops' =>
      let '(s', (n, e)) := rw_write dev s p in
      let '(s'', rs) := run_dev dev s' ops' in (s'', ResWrite n e :: rs)
  end.

(** The same session through a tracer. *)
Fixpoint run_tracer {S T} (tw : io_write T) (dev : io_rw S) (st : S * T) (ops : list op)
  : outcome ((S * T) * list opres) :=
  match ops with
  | [] => Ret (st, [])
  | OpRead n :: ops' =>
      do r <- tracer_Read tw dev st n;
      let '(st', (got, e)) := r in
      do r2 <- run_tracer tw dev st' ops';
      let '(st'', rs) := r2 in Ret (st'', ResRead got e :: rs)
  | OpWrite p :: ops' =>
      do r <- tracer_Write tw dev st p;
      let '(st', (n, e)) := r in
      do r2 <- run_tracer tw dev st' ops';
      let '(st'', rs) := r2 in Ret (st'', ResWrite n e :: rs)
  end.

(** The messages to record for a session: its successful non-empty transfers. *)
Fixpoint recorded (ops : list op) (rs : list opres) : list Msg :=
  match ops, rs with
  | OpRead _ :: ops', ResRead (b :: got) None :: rs' => mkMsg 0 0 (b :: got) :: recorded ops' rs'
  | OpWrite (b :: p) :: ops', ResWrite (S n) None :: rs' =>
      mkMsg 1 0 (firstn (S n) (b :: p)) :: recorded ops' rs'
  | _ :: ops', _ :: rs' => recorded ops' rs'
  | _, _ => []
  end.

(** The size of a transfer's buffer. *)
Definition op_size (o : op) : nat := match o with OpRead n => n | OpWrite p => List.length p end.
Definition is_read (o : op) : bool := match o with OpRead _ => true | OpWrite _ => false end.

(** The data of the successful non-empty reads of a session. *)
Definition read_data (rs : list opres) : list bytes :=
  flat_map (fun r => match r with ResRead (b :: got) None => [b :: got] | _ => [] end) rs.

(** Reading [k] times through a direction-filtered trace reader. *)
Fixpoint replay (k : nat) (dir : N) (r : Reader) (n : nat) : option (list (bytes * option goerr)) :=
  match k with
  | O => Some []
  | S k' => match dir_Read dir r n with
            | None => None
            | Some (r', x) => option_map (cons x) (replay k' dir r' n)
            end
  end.

(** ** Queues *)

(** A plain list of messages. *)
Fixpoint take_dir (dir : N) (l : list Msg) : option (Msg * list Msg) :=
  match l with
  | [] => None
  | m :: l' => if (msg_Dir m =? dir)%N then Some (m, l')
               else match take_dir dir l' with Some (x, r) => Some (x, m :: r) | None => None end
  end.

Inductive qop := QEnqueue (m : Msg) | QHead | QDequeue | QDequeueDir (dir : N).

(** One operation on the queue, and on a plain list. *)
Definition queue_op (q : Queue) (o : qop) : Queue * outcome (option Msg) :=
  match o with
  | QEnqueue m => let '(q', r) := Enqueue q m in (q', do _ <- r; Ret None)
  | QHead => (q, Ret (Head q))
  | QDequeue => Dequeue q
  | QDequeueDir d => DequeueDir q d
  end.

Definition list_op (l : list Msg) (o : qop) : list Msg * option Msg :=
  match o with
  | QEnqueue m => (l ++ [m], None)
  | QHead => (l, match l with [] => None | m :: _ => Some m end)
  | QDequeue => match l with [] => ([], None) | m :: l' => (l', Some m) end
  | QDequeueDir d => match take_dir d l with None => (l, None) | Some (m, l') => (l', Some m) end
  end.

Fixpoint queue_run (q : Queue) (os : list qop) : list (outcome (option Msg)) :=
  match os with
  | [] => []
  | o :: os' => let '(q', r) := queue_op q o in r :: queue_run q' os'
  end.

Fixpoint list_run (l : list Msg) (os : list qop) : list (option Msg) :=
  match os with
  | [] => []
  | o :: os' => let '(l', r) := list_op l o in r :: list_run l' os'
  end.

Definition valid_dir (d : N) : Prop := d = 0%N \/ d = 1%N.

Definition valid_qop (o : qop) : Prop :=
  match o with
  | QEnqueue m => valid_dir (msg_Dir m)
  | QDequeueDir d => valid_dir d
  | _ => True
  end.

(** The same operations with any directions, panics included: a message of a bad direction is
    kept in the list, and makes the calls that enqueue or dequeue it panic. *)
Definition known_dir (d : N) : bool := (d <? 2)%N.

Definition any_op (l : list Msg) (o : qop) : list Msg * outcome (option Msg) :=
  match o with
  | QEnqueue m => (l ++ [m], if known_dir (msg_Dir m) then Ret None else Panic)
  | QHead => (l, Ret match l with [] => None | m :: _ => Some m end)
  | QDequeue => match l with
                | [] => ([], Ret None)
                | m :: l' => (l', if known_dir (msg_Dir m) then Ret (Some m) else Panic)
                end
  | QDequeueDir d => if known_dir d
                     then match take_dir d l with None => (l, Ret None) | Some (m, l') => (l', Ret (Some m)) end
                     else (l, Panic)
  end.

Fixpoint any_run (l : list Msg) (os : list qop) : list (outcome (option Msg)) :=
  match os with
  | [] => []
  | o :: os' => let '(l', r) := any_op l o in r :: any_run l' os'
  end.

(** The queue after a history (panics being recovered by the caller). *)
Fixpoint queue_after (q : Queue) (os : list qop) : Queue :=
  match os with [] => q | o :: os' => queue_after (fst (queue_op q o)) os' end.

(** ** Two goroutines on one tracer *)

(** Each goroutine performs device transfers; a transfer is followed, in a later atomic step of
    the same goroutine, by the write of its trace line.  A thread is what it has still to do:
    a transfer waiting for its trace write, and the transfers to come. *)
Record thread := mkThread { th_pending : option Msg; th_todo : list Msg }.

(** [dev]: the transfers in device order; [file]: the trace file. *)
Record tstate := mkT { t_in : thread; t_out : thread; t_dev : list Msg; t_file : bytes }.

Inductive thread_step : thread -> list Msg -> bytes -> thread -> list Msg -> bytes -> Prop :=
| step_transfer m todo dev file :
    thread_step (mkThread None (m :: todo)) dev file (mkThread (Some m) todo) (dev ++ [m]) file
| step_record m todo dev file file' e :
    WriteMsg append_file file m = (file', e) ->
    thread_step (mkThread (Some m) todo) dev file (mkThread None todo) dev file'.

Inductive tstep : tstate -> tstate -> Prop :=
| tstep_in a b dev file a' dev' file' :
    thread_step a dev file a' dev' file' -> tstep (mkT a b dev file) (mkT a' b dev' file')
| tstep_out a b dev file b' dev' file' :
    thread_step b dev file b' dev' file' -> tstep (mkT a b dev file) (mkT a b' dev' file').

Inductive tsteps : tstate -> tstate -> Prop :=
| tsteps_refl s : tsteps s s
| tsteps_step s s' s'' : tstep s s' -> tsteps s' s'' -> tsteps s s''.

Definition idle : thread := mkThread None [].
