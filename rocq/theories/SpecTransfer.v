(** * Specification vocabulary for transfers *)

From Verif Require Import GoBase Flags SpecFlags SpecWire Config Shipped Timestamp Holes Data SpecFrames Status Request Fileio Dirent Metadata Trans Sarnet Transfer.
Local Open Scope string_scope.
Local Open Scope N_scope.

(** The session id that call number [k] (from 0) of a process gets *)
Definition session_id (pid : N) (k : nat) : N := Nat.iter (S k) (newsession pid) 0.

(** ** The table *)

(** What identifies a transfer to its users *)
Definition key_is (direction : bool) (session : N) (peer : string) (t : transfer) : Prop :=
  tr_direction t = direction /\ tr_session t = session /\ udpaddr_string (tr_peer t) = peer.
Definition same_key (t u : transfer) : Prop := key_is (tr_direction t) (tr_session t) (udpaddr_string (tr_peer t)) u.

(** The transfer is connected to the peer that is written [addr] *)
Definition connected_to (addr : string) (t : transfer) : Prop :=
  exists c a, tr_conn t = Some c /\ uc_remote c = Some a /\ udpaddr_string a = addr.
Definition connected (t : transfer) : Prop := exists addr, connected_to addr t.

(** What metadata does not touch *)
Definition same_otherwise (t t' : transfer) : Prop :=
  tr_direction t' = tr_direction t /\ tr_session t' = tr_session t /\ tr_conn t' = tr_conn t /\ tr_peer t' = tr_peer t /\
  tr_ttype t' = tr_ttype t /\ tr_tstamptype t' = tr_tstamptype t /\ tr_filename t' = tr_filename t /\ tr_fp t' = tr_fp t /\
  tr_filemeta t' = tr_filemeta t /\ tr_progress t' = tr_progress t /\ tr_inrespto t' = tr_inrespto t /\
  tr_curfills t' = tr_curfills t /\ tr_cliflags t' = tr_cliflags t.
(** The description that metadata gives *)
Definition describes (m : metadata) (t : transfer) : Prop :=
  reads sar (m_header m) "csumtype" (tr_csumtype t) /\ tr_checksum t = m_checksum m /\ tr_dir t = Some (m_dir m).

(** ** Status reports *)

(** Bytes of one hole, for each descriptor *)
Definition hole_bytes (w : nat) : Z := (2 * Z.of_nat w)%Z.
(** What a frame with [n] holes takes: header, session, the announced timestamp, progress
    and in-response-to, the holes *)
Definition report_bytes (stamp : bool) (w n : nat) : Z :=
  (4 + 4 + (if stamp then 16 else 0) + hole_bytes w + Z.of_nat n * hole_bytes w)%Z.
(** What UDP over IP leaves for it *)
Definition udp_room (mtu : Z) : Z := (mtu - 60 - 8)%Z.
(** [n] is the largest number of holes that fits *)
Definition most_holes (mtu : Z) (stamp : bool) (w n : nat) : Prop :=
  (report_bytes stamp w n <= udp_room mtu < report_bytes stamp w (S n))%Z.

Definition descriptor_bytes (d : string) : option nat :=
  if String.eqb d "d16" then Some 2%nat else if String.eqb d "d32" then Some 4%nat else if String.eqb d "d64" then Some 8%nat else None.

(** The flags of a status frame *)
Definition flags_allowed : list string :=
  ["descriptor"; "stream"; "metadatarecvd"; "allholes"; "reqholes"; "errcode"; "reqtstamp"].
Definition is_yes (o : option string) : bool := match o with Some v => String.eqb v "yes" | None => false end.
(** The flags of a report: version 1, status frame, the requested ones, with allholes as given *)
Definition report_settings (items : list (string * string)) (allholes : string) : list (string * string) :=
  (("version", "v1") :: ("frametype", "status") :: items ++ [("allholes", allholes)])%list.

(** ** Starting a transfer *)

(** What stands in the way of a new transfer of [fname] to [peer]: a transfer without a
    connection, any transfer if a file would be overwritten, the same transfer *)
Definition overwrites (fs : fsys) (cwd : path) (sardir ttype fname : string) : bool :=
  file_exists fs cwd sardir fname && is_in ttype ["get"; "getdelete"; "getdir"].
Definition without_connection (t : transfer) : bool := match tr_conn t with None => true | Some _ => false end.
Definition same_job (fname : string) (peer : udpaddr) (t : transfer) : bool :=
  String.eqb fname (tr_filename t) && String.eqb (udpaddr_string peer) (udpaddr_string (tr_peer t)).
Definition in_the_way (overwrite : bool) (fname : string) (peer : udpaddr) (t : transfer) : bool :=
  without_connection t || overwrite || same_job fname peer t.

(** The transfers of a file with a peer *)
Definition jobs (fname : string) (peer : udpaddr) (l : list transfer) : nat := length (filter (same_job fname peer) l).

(** What happens to the table of transfers in a process with id [pid], when calls do not
    overlap; [n] counts the transfers started *)
Inductive history (pid : N) : nat -> istate -> Prop :=
| hi_start : forall s, is_table s = [] -> is_session s = 0 -> history pid 0 s
| hi_refused : forall n s E sardir c ttype peer fname s', history pid n s -> ie_pid E = pid ->
    new_initiator E sardir c s ttype peer fname = Ret (s', None) -> history pid n s'
| hi_started : forall n s E sardir c ttype peer fname s' t, history pid n s -> ie_pid E = pid ->
    new_initiator E sardir c s ttype peer fname = Ret (s', Some t) -> history pid (S n) s'
| hi_removed : forall n s t, history pid n s ->
    history pid n {| is_table := fst (tremove (is_table s) t); is_session := is_session s; is_fs := is_fs s; is_cwd := is_cwd s |}
| hi_changed : forall n s i t memory m t' e, history pid n s -> nth_error (is_table s) i = Some t ->
    tchange memory t m = Ret (t', e) ->
    history pid n {| is_table := tset (is_table s) i t'; is_session := is_session s; is_fs := is_fs s; is_cwd := is_cwd s |}
| hi_answered : forall n s E H sardir c r peer table e, history pid n s ->
    new_responder E H sardir c (is_fs s) (is_cwd s) (is_table s) r peer = Ret (table, e) ->
    history pid n {| is_table := table; is_session := is_session s; is_fs := is_fs s; is_cwd := is_cwd s |}.

(** ** Overlapping calls *)

(** A call of NewInitiator is made of a look at the table and, if nothing is in the way,
    the addition, which is made with the lock held *)
Record icall := { ic_env : ienv; ic_sardir : string; ic_cli : cliflags; ic_ttype : string; ic_peer : udpaddr; ic_fname : string }.
Inductive ipc := IStart | ILooked | IDone.
Definition istep (c : icall) (pc : ipc) (s : istate) : outcome (ipc * istate) :=
  match pc with
  | IStart =>
      match initiator_check (is_fs s) (is_cwd s) (ic_sardir c) (is_table s) (ic_ttype c) (ic_peer c) (ic_fname c) with
      | Some l => Ret (IDone, {| is_table := l; is_session := is_session s; is_fs := is_fs s; is_cwd := is_cwd s |})
      | None => Ret (ILooked, s)
      end
  | ILooked =>
      do ' (s', _) <- initiator_add (ic_env c) (ic_sardir c) (ic_cli c) s (ic_ttype c) (ic_peer c) (ic_fname c); Ret (IDone, s')
  | IDone => Ret (IDone, s)
  end.
Fixpoint run_two (sched : list bool) (c1 c2 : icall) (p1 p2 : ipc) (s : istate) : outcome istate :=
  match sched with
  | [] => Ret s
  | true :: r => do ' (p1', s') <- istep c1 p1 s; run_two r c1 c2 p1' p2 s'
  | false :: r => do ' (p2', s') <- istep c2 p2 s; run_two r c1 c2 p1 p2' s'
  end.
