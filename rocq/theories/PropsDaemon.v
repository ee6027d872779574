(** * Daemon: the properties

    Statements only; the proofs are in DaemonMain.v. *)
From Verif Require Import GoBase GoFacts Flags Config Shipped SpecFlags FlagsFacts ConfigFacts FlagsMain SpecWire SarFacts Timestamp SpecTime TimeMain Holes Data SpecFrames FrameFacts BuildFacts DataMain Status SpecStatus StatusMain Request SpecRequest RequestMain Beacon SpecBeacon BeaconMain Peers SpecPeers PeersMain Fileio SpecFileio FileioMain Dirent SpecDirent DirentMain Metadata SpecMetadata MetadataMain Trans Listen SpecListen ListenMain TransMain Daemon SpecDaemon DaemonMain.
Local Open Scope string_scope.
Local Open Scope N_scope.

(** C60: in every state of every run, what main has handled of a family, followed by
    the frame that listener is waiting to hand over, is the list of frames held by the
    datagrams it has read, each once and in the order of arrival. *)
Theorem C60_order : forall su s, reachable su s -> forall f,
  (handled_of f s ++ waiting_rx f s)%list = frames_in (su_mtu su) (ds_read s f).
Proof. exact c60_order. Qed.
Print Assumptions C60_order.

(** C60: the same for the answers: one for each datagram that is answered, in order. *)
Theorem C60_answers : forall su s, reachable su s -> forall f,
  Forall2 (answers_to (su_mtu su)) (filter (is_answered (su_mtu su)) (ds_read s f)) (shown_of f s ++ waiting_tx f s)%list.
Proof. exact c60_answers. Qed.
Print Assumptions C60_answers.

(** C60: a frame that waits can be taken as long as the process lives and main is at its select. *)
Theorem C60_can_take : forall su s f p now, ds_dead s = false -> ds_main s = MSelect ->
  (ds_listener s f = LRx p \/ ds_listener s f = LTx p) ->
  exists s', dstep su s (Meet (GListen f) GMain now) = Some s' /\ ds_listener s' f = LRead.
Proof. exact c60_can_take. Qed.
Print Assumptions C60_can_take.

(** C60: a socket that cannot be read any more: its listener reads nothing further, and the
    daemon ends when main takes note of it. *)
Theorem C60_read_error : forall su s f, ds_dead s = false -> ds_listener s f = LRead ->
  exists s', dstep su s (Read_error f) = Some s' /\
    (forall now d from, dstep su s' (Datagram f now d from) = None) /\
    (forall now, ds_main s = MSelect -> exists s2, dstep su s' (Meet (GListen f) GMain now) = Some s2 /\ ds_dead s2 = true).
Proof. exact c60_read_error. Qed.
Print Assumptions C60_read_error.

(** C59: once main has begun to send an answer itself it never comes back, whatever the
    handler of requests does and whatever happens: it handles no more frames, shows none, and
    takes no notice of the user quitting. *)
Theorem C59_blocked : forall su s f p ls, ds_main s = MSend f p ->
  let s' := drun su s ls in
  ds_main s' = MSend f p /\ ds_handled s' = ds_handled s /\ ds_shown s' = ds_shown s /\
  w_peers (ds_world s') = w_peers (ds_world s) /\ w_transfers (ds_world s') = w_transfers (ds_world s).
Proof. exact c59_blocked. Qed.
Print Assumptions C59_blocked.

(** C59: each listener then gets no further than the next datagram that is not dropped. *)
Theorem C59_listeners : forall su s f p ls x, reachable su s -> ds_main s = MSend f p ->
  let s' := drun su s ls in
  (length (frames_in (su_mtu su) (ds_read s' x)) + length (filter (is_answered (su_mtu su)) (ds_read s' x)) <=
   length (handled_of x s) + length (shown_of x s) + 1)%nat.
Proof. exact c59_listeners. Qed.
Print Assumptions C59_listeners.

(** C59: were requests read as intended, every request that is answered would block the daemon in this way. *)
Theorem C59_every_answer : forall timetype mtu cwd sardir s f a r now,
  let su := daemon_reading timetype mtu cwd sardir in
  let removable := match file_rm (w_fs (ds_world s)) cwd sardir (r_fname r) with inl _ => true | inr _ => false end in
  ds_dead s = false -> ds_main s = MSelect -> ds_listener s f = LRx {| pk_addr := a; pk_info := FRequest r |} ->
  (exists code, decide (r_header r) (file_exists (w_fs (ds_world s)) cwd sardir (r_fname r)) removable = Refuse code \/
                decide (r_header r) (file_exists (w_fs (ds_world s)) cwd sardir (r_fname r)) removable = Remove_file) ->
  exists s' p, dstep su s (Meet (GListen f) GMain now) = Some s' /\ ds_main s' = MSend f p /\ pk_addr p = a /\ ds_dead s' = false.
Proof. exact c59_every_answer. Qed.
Print Assumptions C59_every_answer.

(** C58: were requests read as intended, this is what main taking one would change. *)
Theorem C58_main : forall timetype mtu cwd sardir s f a r now,
  let su := daemon_reading timetype mtu cwd sardir in
  let w := ds_world s in
  let removable := match file_rm (w_fs w) cwd sardir (r_fname r) with inl _ => true | inr _ => false end in
  ds_dead s = false -> ds_main s = MSelect -> ds_listener s f = LRx {| pk_addr := a; pk_info := FRequest r |} ->
  exists s', dstep su s (Meet (GListen f) GMain now) = Some s' /\
  match decide (r_header r) (file_exists (w_fs w) cwd sardir (r_fname r)) removable with
  | Kills => ds_dead s' = true
  | Refuse _ => ds_dead s' = false /\ ds_world s' = w
  | Remove_file => ds_dead s' = false /\ exists fs', file_rm (w_fs w) cwd sardir (r_fname r) = inl fs' /\
      ds_world s' = {| w_fs := fs'; w_transfers := w_transfers w; w_peers := w_peers w |}
  | Take_on t =>
      match ts_now now zero_timestamp timetype with
      | Ret (ts, _) => ds_dead s' = false /\
          ds_world s' = {| w_fs := w_fs w; w_peers := w_peers w;
                           w_transfers := (w_transfers w ++ [{| rt_peer := a; rt_session := r_session r; rt_ttype := t; rt_fname := r_fname r;
                             rt_timetype := timetype; rt_tstamp := ts; rt_csumtype := "none" |}])%list |}
      | _ => ds_dead s' = true
      end
  end.
Proof. exact c58_main. Qed.
Print Assumptions C58_main.

(** C57: in no run has a request been handled while the daemon lives; no transfer is ever
    recorded, and main never sends an answer. *)
Theorem C57_never : forall mtu cwd sardir s, reachable (the_daemon mtu cwd sardir) s ->
  ds_main s = MSelect /\ w_transfers (ds_world s) = [] /\
  (ds_dead s = false -> forall h, In h (ds_handled s) -> forall r, pk_info (snd h) <> FRequest r).
Proof. exact c57_never. Qed.
Print Assumptions C57_never.

(** C57: main taking a request is the end of the process, in every state. *)
Theorem C57_taken : forall mtu cwd sardir s f a r now,
  ds_dead s = false -> ds_main s = MSelect -> ds_listener s f = LRx {| pk_addr := a; pk_info := FRequest r |} ->
  exists s', dstep (the_daemon mtu cwd sardir) s (Meet (GListen f) GMain now) = Some s' /\ ds_dead s' = true.
Proof. exact c57_taken. Qed.
Print Assumptions C57_taken.

(** C76: in every state of every run in which the daemon lives, the peer table is the
    one that the beacons handled so far call for. *)
Theorem C76_peers : forall mtu cwd sardir s, reachable_good (the_daemon mtu cwd sardir) s -> ds_dead s = false ->
  let hist := beacons_of (ds_handled s) in
  let ps := w_peers (ds_world s) in
  NoDup (map p_addr ps) /\
  (forall a, In a (map p_addr ps) <-> exists b, In b hist /\ sg_from b = Some a) /\
  (forall p, In p ps -> right_entry hist p).
Proof. exact c76_peers. Qed.
Print Assumptions C76_peers.

(** C139: as long as no lethal datagram arrives, both sockets can be read and nobody quits,
    the daemon lives, in every schedule. *)
Theorem C139_lives : forall mtu cwd sardir fs ls, (forall l, In l ls -> good_label l /\ harmless mtu l) ->
  ds_dead (drun (the_daemon mtu cwd sardir) (start fs) ls) = false.
Proof. exact c139_lives. Qed.
Print Assumptions C139_lives.

(** C139: each of the three does end it, whatever has happened before: a lethal datagram as
    soon as it is read or main takes its frame, *)
Theorem C139_deadly : forall mtu cwd sardir s f now now' d from, reachable (the_daemon mtu cwd sardir) s -> ds_listener s f = LRead ->
  good_now now' -> lethal mtu d ->
  ds_dead (drun (the_daemon mtu cwd sardir) s [Datagram f now d from; Meet (GListen f) GMain now']) = true.
Proof. exact c139_deadly. Qed.
Print Assumptions C139_deadly.

(** C139: a socket that cannot be read, and a user who quits, as soon as main takes note. *)
Theorem C139_others : forall mtu cwd sardir s f now, reachable (the_daemon mtu cwd sardir) s ->
  (ds_listener s f = LRead -> ds_dead (drun (the_daemon mtu cwd sardir) s [Read_error f; Meet (GListen f) GMain now]) = true) /\
  ds_dead (drun (the_daemon mtu cwd sardir) s [User_quits; Take_errflag]) = true.
Proof. exact c139_others. Qed.
Print Assumptions C139_others.
Example C60_read_error_ex : ds_dead (start ex_tree) = false /\ ds_listener (start ex_tree) V6 = LRead /\ ds_main (start ex_tree) = MSelect /\
  ds_dead (drun ex_daemon (start ex_tree) [Read_error V6; Meet (GListen V6) GMain ex_now]) = true.
Proof. exact c60_read_error_ex. Qed.
Example C60_order_ex : let s := drun ex_daemon (start ex_tree) ex_run in
  ds_dead s = false /\ length (handled_of V4 s) = 2%nat /\ length (handled_of V6 s) = 1%nat /\ length (shown_of V6 s) = 1%nat /\
  map (fun h => fst (fst h)) (ds_handled s) = [V6; V4; V4].
Proof. exact c60_order_ex. Qed.
Example C60_can_take_ex : let s := drun ex_daemon (start ex_tree) [Datagram V4 ex_now ex_beacon_dgram ex_from] in
  ds_dead s = false /\ ds_main s = MSelect /\ exists p, ds_listener s V4 = LRx p.
Proof. exact c60_can_take_ex. Qed.
Example C76_peers_ex : let s := drun ex_daemon (start ex_tree) ex_run in
  map (fun p => (p_addr p, p_eid p)) (w_peers (ds_world s)) = [("fe80::1", "other"); ("10.0.0.1", "other")] /\
  (forall l, In l ex_run -> good_label l).
Proof. exact c76_peers_ex. Qed.
Example C57_taken_ex : let s := drun ex_daemon (start ex_tree) [Datagram V4 ex_now (ex_req_dgram 1 "f") ex_from] in
  (exists r, ds_listener s V4 = LRx {| pk_addr := ex_from; pk_info := FRequest r |}) /\ ds_dead s = false /\
  ds_dead (drun ex_daemon s [Meet (GListen V4) GMain ex_now]) = true.
Proof. exact c57_taken_ex. Qed.

(** read as intended, the deletion is carried out and then main is stuck *)
Example C59_blocked_ex :
  let su := daemon_reading "epoch2000_32" 1500 [] "/Users/chas/sardir" in
  let s := drun su (start ex_tree) [Datagram V4 ex_now (ex_req_dgram 5 "f") ex_from; Meet (GListen V4) GMain ex_now] in
  (exists p, ds_main s = MSend V4 p) /\ ds_dead s = false /\ file_exists (w_fs (ds_world s)) [] "/Users/chas/sardir" "f" = false /\
  reachable su s.
Proof. exact c59_blocked_ex. Qed.

(** read as intended, a get is recorded *)
Example C58_main_ex :
  let su := daemon_reading "epoch2000_32" 1500 [] "/Users/chas/sardir" in
  let s := drun su (start ex_tree) [Datagram V4 ex_now (ex_req_dgram 1 "f") ex_from] in
  (exists r, ds_listener s V4 = LRx {| pk_addr := ex_from; pk_info := FRequest r |}) /\ ds_dead s = false /\
  map rt_ttype (w_transfers (ds_world (drun su s [Meet (GListen V4) GMain ex_now]))) = ["get"].
Proof. exact c58_main_ex. Qed.
Example C139_ex : (forall l, In l ex_run -> good_label l /\ harmless 1500 l) /\
  lethal 1500 (ex_req_dgram 1 "f") /\ reachable ex_daemon (drun ex_daemon (start ex_tree) ex_run) /\
  ds_listener (drun ex_daemon (start ex_tree) ex_run) V6 = LRead.
Proof. exact c139_ex. Qed.
