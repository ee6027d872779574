(** * Sending a file: what the theorems say *)

From Verif Require Import GoBase Flags SpecFlags Config Shipped SpecWire Timestamp SpecTime Holes SpecHoles Data SpecFrames Status SpecStatus SpecListen Client.
Local Open Scope string_scope.
Local Open Scope N_scope.

(** ** The flags *)
(** Flags a data frame can have, each at most once *)
Definition usable (items : list (string * string)) : Prop :=
  items <> [] /\ NoDup (map fst items) /\
  forall f v, In (f, v) items -> In f ["version"; "descriptor"; "transfer"; "reqtstamp"; "reqstatus"; "eod"] /\ valid_setting sar (f, v) /\ (f, v) <> ("transfer", "bundle").
(** What is asked for, or what holds if it is not mentioned *)
Definition asked (items : list (string * string)) (f default : string) : string :=
  match setting_of items f with Some v => v | None => default end.
Definition stamps (items : list (string * string)) : bool := String.eqb (asked items "reqtstamp" "no") "yes".
(** The room for bytes of the file in a frame *)
Definition room (mtu : Z) (items : list (string * string)) : Z :=
  (mtu - 60 - 8 - 8
   - (match setting_of items "descriptor" with Some "d16" => 2 | Some "d32" => 4 | Some "d64" => 8 | Some "d128" => 16 | _ => 0 end)
   - (if stamps items then 16 else 0))%Z.
(** Bytes of an offset *)
Definition offset_bytes (items : list (string * string)) : option nat :=
  match asked items "descriptor" "d16" with "d16" => Some 2%nat | "d32" => Some 4%nat | "d64" => Some 8%nat | _ => None end.

(** ** The frames *)
Definition yes_if (b : bool) : string := if b then "yes" else "no".
(** The file is sent in parts of [plen] bytes; the last part is the first one that is shorter, perhaps empty *)
Definition part (file : list byte) (plen i : nat) : list byte := firstn plen (skipn (i * plen) file).
Definition last_part (file : list byte) (plen : nat) : nat := (List.length file / plen)%nat.
(** A status is asked for with every hundredth frame and with the last *)
Definition wants_status (last i : nat) : bool := Nat.eqb (S i mod 100) 0 || Nat.eqb i last.
(** The frame for part [i]: these flags and no others *)
Definition frame_for (s : surroundings) (session : N) (items : list (string * string)) (plen i : nat) (d : data) : Prop :=
  let last := last_part (c_file s) plen in
  d_session d = session mod 2 ^ 32 /\ d_offset d = N.of_nat (i * plen) /\ d_payload d = part (c_file s) plen i /\
  set_exactly sar 0 (d_header d)
    [("version", asked items "version" "v1"); ("frametype", "data"); ("descriptor", asked items "descriptor" "d16");
     ("reqtstamp", asked items "reqtstamp" "no"); ("reqstatus", yes_if (wants_status last i)); ("eod", yes_if (Nat.eqb i last))] /\
  stamped (c_now s i) zero_timestamp (if stamps items then ["posix32"] else []) (d_tstamp d).
Definition frames_for (s : surroundings) (session : N) (items : list (string * string)) (plen count : nat) (ds : list data) : Prop :=
  List.length ds = count /\ forall i d, nth_error ds i = Some d -> frame_for s session items plen i d.
(** Handing frames to the socket, from call [n] on: a failure is reported *)
Fixpoint handing (s : surroundings) (n : nat) (ds : list data) : list caction :=
  match ds with
  | [] => []
  | d :: r => CSend d :: (if String.eqb (c_write s n) "success" then [] else [CSay (c_write s n)]) ++ handing s (S n) r
  end%list.

(** ** Messages *)
(** All that a run of the two tasks tells, in the order of each *)
Inductive merged : list cmsg -> list cmsg -> list cmsg -> Prop :=
| mg_nil : merged [] [] []
| mg_left : forall x a b c, merged a b c -> merged (x :: a) b (x :: c)
| mg_right : forall x a b c, merged a b c -> merged a (x :: b) (x :: c).
Definition by_status (a : caction) : list cmsg :=
  match a with CSay e => [MStatus e] | CPos _ _ => [MPos] | _ => [] end.
Definition by_data (a : caction) : list cmsg := match a with CSay e => [MData e] | _ => [] end.

(** ** Status frames *)
(** The bytes [d] carries include position [p] *)
Definition carries (d : data) (p : Z) : Prop := (Z.of_N (d_offset d) <= p < Z.of_N (d_offset d) + Z.of_nat (List.length (d_payload d)))%Z.
(** Both ends of the hole are 64-bit numbers *)
Definition in_int64 (h : hole) : Prop := (- 2 ^ 63 <= h_start h < 2 ^ 63)%Z /\ (- 2 ^ 63 <= h_end h < 2 ^ 63)%Z.
(** The length of a hole in 64-bit arithmetic, which wraps *)
Definition hole_length (h : hole) : Z := ((h_end h - h_start h + 2 ^ 63) mod 2 ^ 64 - 2 ^ 63)%Z.
(** A datagram that is a status frame of version 1 *)
Definition is_status (f : list byte) : Prop :=
  status_verdict f = Accept /\ SpecListen.hd_version (number_at f 0 4) = 1 /\ SpecListen.hd_frametype (number_at f 0 4) = 4.
(** A status that says all is well and asks for nothing *)
Definition confirms (f : list byte) : Prop :=
  is_status f /\ reads sar (number_at f 0 4) "errcode" "success" /\ reads sar (number_at f 0 4) "metadatarecvd" "yes" /\
  forall s', status_decode zero_status f = Ret (s', None) -> s_holes s' = [].
(** A message that does not end a put: a success, or two numbers from the reader of status frames *)
Definition passes (scan : string -> option (N * N)) (m : cmsg) : Prop :=
  match m with MPos => True | MData e => e = "success" | MStatus e => e = "success" \/ scan e <> None end.
Definition ends_with (scan : string -> option (N * N)) (m : cmsg) (e : string) : Prop :=
  e <> "success" /\ (m = MData e \/ m = MStatus e /\ scan e = None).

(** ** Starting a transfer *)
Definition connects (a : answers) : Prop := a_open a = true /\ a_seek a = true /\ a_resolve a = true /\ a_dial a = true.
(** The file and the address are found, but the socket cannot be made *)
Definition dial_fails (a : answers) : Prop := a_open a = true /\ a_seek a = true /\ a_resolve a = true /\ a_dial a = false.
(** Everything up to the data of a put goes well *)
Definition put_starts (a : answers) : Prop :=
  connects a /\ a_request a = true /\ a_metadata a = true /\ a_write a 0%nat = "success" /\ a_write a 1%nat = "success".

(** ** Holes dealt with one after the other *)

(** [one] deals with one hole: what it does, the error it stops with, and the count of writes after it.  The holes are dealt with
    in turn until one of them ends the put. *)
Inductive in_turn {A} (one : hole -> nat -> outcome (list A * option string * nat)) : list hole -> nat -> outcome (list A * option string * nat) -> Prop :=
| turn_none : forall n, in_turn one [] n (Ret ([], None, n))
| turn_stop : forall h r n l e n', one h n = Ret (l, Some e, n') -> in_turn one (h :: r) n (Ret (l, Some e, n'))
| turn_on : forall h r n l n' l' stop n'', one h n = Ret (l, None, n') -> in_turn one r n' (Ret (l', stop, n'')) -> in_turn one (h :: r) n (Ret ((l ++ l')%list, stop, n''))
| turn_panic : forall h r n, one h n = Panic -> in_turn one (h :: r) n Panic
| turn_fatal : forall h r n, one h n = Fatal -> in_turn one (h :: r) n Fatal
| turn_panic_on : forall h r n l n', one h n = Ret (l, None, n') -> in_turn one r n' Panic -> in_turn one (h :: r) n Panic
| turn_fatal_on : forall h r n l n', one h n = Ret (l, None, n') -> in_turn one r n' Fatal -> in_turn one (h :: r) n Fatal.
(** [k] frames are to be written, as the writes from the [n]th on answer: [sent] of them are, and the error is [stop] *)
Definition written (answer : nat -> string) (n k sent : nat) (stop : option string) : Prop :=
  (sent = k /\ stop = None /\ forall i, (i < k)%nat -> answer (n + i)%nat = "success") \/
  (exists j, (j < k)%nat /\ sent = S j /\ stop = Some (answer (n + j)%nat) /\ answer (n + j)%nat <> "success" /\ forall i, (i < j)%nat -> answer (n + i)%nat = "success").
