(** * Model of the peers command while beacons arrive

    sarwin/sarwin.go:1805-1886 cmdPeers runs in a goroutine of its own (sarwin/sarwin.go:2513) and reads the table of peers
    without a lock, again and again, one member at a time; meanwhile the main loop registers beacons (beacon/beacon.go:344-385
    NewPeer, called in saratoga/saratoga.go), which changes the table one member at a time.  [new_peer] (Beacon.v) and
    [peers_text] (Table.v) take each of the two for one step; here their steps interleave.  Simplification: a string or a
    number, and the slice of peers itself, is read and written in one step. *)

From Verif Require Import GoBase Flags Config Shipped Timestamp Data Beacon Fileio Sarnet Transfer Words Clock SpecPeers Table.
Local Open Scope string_scope.
Local Open Scope N_scope.

(** ** What the main loop writes *)
(** One write (beacon/beacon.go:357-362 with timestamp/timestamp.go:34-61, and 383) *)
Inductive write :=
| Append (p : peer)
| SetFreespace (i : nat) (n : N)
| SetEid (i : nat) (s : string)
| SetMaxdesc (i : nat) (s : string)
| SetCanrx (i : nat) (s : string)
| SetCantx (i : nat) (s : string)
| SetHeader (i : nat) (n : N)
| SetSecs (i : nat) (n : N)
| SetType (i : nat) (s : string)
| SetNsecs (i : nat) (n : N)
| SetLocal (i : nat) (s : string).

(** Peers[i] = f(Peers[i]) (beacon/beacon.go:357-362) *)
Fixpoint change_at (i : nat) (f : peer -> peer) (l : list peer) : list peer :=
  match l, i with
  | [], _ => []
  | p :: r, O => f p :: r
  | p :: r, S i => p :: change_at i f r
  end.
(** Peers[i].Updated = t (timestamp/timestamp.go:34-61, called in beacon/beacon.go:362) *)
Definition set_updated (f : timestamp -> timestamp) (p : peer) : peer :=
  {| p_addr := p_addr p; p_freespace := p_freespace p; p_eid := p_eid p; p_maxdesc := p_maxdesc p; p_canrx := p_canrx p;
     p_cantx := p_cantx p; p_created := p_created p; p_updated := f (p_updated p) |}.
(** The table after a write (beacon/beacon.go:357-362, 383) *)
Definition do_write (ps : list peer) (w : write) : list peer :=
  match w with
  | Append p => (ps ++ [p])%list
  | SetFreespace i n => change_at i (fun p => {| p_addr := p_addr p; p_freespace := n; p_eid := p_eid p; p_maxdesc := p_maxdesc p;
      p_canrx := p_canrx p; p_cantx := p_cantx p; p_created := p_created p; p_updated := p_updated p |}) ps
  | SetEid i s => change_at i (fun p => {| p_addr := p_addr p; p_freespace := p_freespace p; p_eid := s; p_maxdesc := p_maxdesc p;
      p_canrx := p_canrx p; p_cantx := p_cantx p; p_created := p_created p; p_updated := p_updated p |}) ps
  | SetMaxdesc i s => change_at i (fun p => {| p_addr := p_addr p; p_freespace := p_freespace p; p_eid := p_eid p; p_maxdesc := s;
      p_canrx := p_canrx p; p_cantx := p_cantx p; p_created := p_created p; p_updated := p_updated p |}) ps
  | SetCanrx i s => change_at i (fun p => {| p_addr := p_addr p; p_freespace := p_freespace p; p_eid := p_eid p; p_maxdesc := p_maxdesc p;
      p_canrx := s; p_cantx := p_cantx p; p_created := p_created p; p_updated := p_updated p |}) ps
  | SetCantx i s => change_at i (fun p => {| p_addr := p_addr p; p_freespace := p_freespace p; p_eid := p_eid p; p_maxdesc := p_maxdesc p;
      p_canrx := p_canrx p; p_cantx := s; p_created := p_created p; p_updated := p_updated p |}) ps
  | SetHeader i n => change_at i (set_updated (fun t => {| t_header := n; t_secs := t_secs t; t_nsecs := t_nsecs t; t_local := t_local t; t_ttype := t_ttype t |})) ps
  | SetSecs i n => change_at i (set_updated (fun t => {| t_header := t_header t; t_secs := n; t_nsecs := t_nsecs t; t_local := t_local t; t_ttype := t_ttype t |})) ps
  | SetType i s => change_at i (set_updated (fun t => {| t_header := t_header t; t_secs := t_secs t; t_nsecs := t_nsecs t; t_local := t_local t; t_ttype := s |})) ps
  | SetNsecs i n => change_at i (set_updated (fun t => {| t_header := t_header t; t_secs := t_secs t; t_nsecs := n; t_local := t_local t; t_ttype := t_ttype t |})) ps
  | SetLocal i s => change_at i (set_updated (fun t => {| t_header := t_header t; t_secs := t_secs t; t_nsecs := t_nsecs t; t_local := s; t_ttype := t_ttype t |})) ps
  end.
(** Several writes (beacon/beacon.go:344-385) *)
Definition do_writes (ps : list peer) (ws : list write) : list peer := fold_left do_write ws ps.

(** beacon/beacon.go:357-362 and timestamp/timestamp.go:34-61: the entry number [i] becomes [p], member by member in the order of
    the code (a time that does not fit leaves local as it is: then that is what is written) *)
Definition entry_writes (i : nat) (p : peer) : list write :=
  let t := p_updated p in
  [SetFreespace i (p_freespace p); SetEid i (p_eid p); SetMaxdesc i (p_maxdesc p); SetCanrx i (p_canrx p); SetCantx i (p_cantx p);
   SetHeader i (t_header t); SetSecs i (t_secs t); SetType i (t_ttype t); SetNsecs i (t_nsecs t); SetLocal i (t_local t)].
(** beacon/beacon.go:349-350: the number of the first peer of an address *)
Fixpoint peer_index (ps : list peer) (addr : string) : option nat :=
  match ps with
  | [] => None
  | p :: r => if String.eqb (p_addr p) addr then Some O else option_map S (peer_index r addr)
  end.
(** beacon/beacon.go:344-385 NewPeer: what it writes.  The main loop is the only one that writes, so that what it finds in the
    table does not change under its hands. *)
Definition beacon_writes (now : gotime) (ps : list peer) (b : beacon) (from : option string) : outcome (list write) :=
  match from with
  | None => Ret []
  | Some addr =>
      match peer_index ps addr with
      | Some i =>
          match nth_error ps i with
          | Some p => do ' (p', changed) <- peer_change now p b; Ret (if (changed : bool) then entry_writes i p' else [])
          | None => Panic
          end
      | None => do p <- peer_new now b addr; Ret [Append p]
      end
  end.
(** The main loop registers one beacon after the other (saratoga/saratoga.go:615-650, beacon/beacon.go:344-385) *)
Fixpoint history_writes (ps : list peer) (hist : list sighting) : outcome (list write) :=
  match hist with
  | [] => Ret []
  | s :: r =>
      do ws <- beacon_writes (sg_now s) ps (sg_beacon s) (sg_from s);
      do rest <- history_writes (do_writes ps ws) r;
      Ret (ws ++ rest)%list
  end.

(** ** What the command reads *)
(** A computation that looks at the table of the moment, again and again (sarwin/sarwin.go:1805-1886) *)
Inductive looks (A : Type) : Type :=
| Stop (o : outcome A)
| Look (k : list peer -> looks A).
Arguments Stop {A}.
Arguments Look {A}.
(** Auxiliary, no code of its own: one computation after the other (sarwin/sarwin.go:1805-1886) *)
Fixpoint lbind {A B} (m : looks A) (f : A -> looks B) : looks B :=
  match m with
  | Stop (Ret a) => f a
  | Stop Panic => Stop Panic
  | Stop Fatal => Stop Fatal
  | Look k => Look (fun ps => lbind (k ps) f)
  end.
Notation "'look' x <- m ; k" := (lbind m (fun x => k))
  (at level 200, x name, m at level 100, k at level 200, right associativity).

(** beacon.Peers[i].f (sarwin/sarwin.go:1816-1864); panics beyond the end *)
Definition look_at {A} (i : nat) (f : peer -> A) : looks A :=
  Look (fun ps => match nth_error ps i with Some p => Stop (Ret (f p)) | None => Stop Panic end).
(** beacon.Peers[i].Created.Print() and Updated.Print() (sarwin/sarwin.go:1828-1833, 1862-1863): the time is copied, member by
    member, then printed *)
Definition look_time (i : nat) (f : peer -> timestamp) : looks string :=
  look h <- look_at i (fun p => t_header (f p));
  look s <- look_at i (fun p => t_secs (f p));
  look n <- look_at i (fun p => t_nsecs (f p));
  look l <- look_at i (fun p => t_local (f p));
  look y <- look_at i (fun p => t_ttype (f p));
  Stop (ts_print {| t_header := h; t_secs := s; t_nsecs := n; t_local := l; t_ttype := y |}).
(** sarwin/sarwin.go:1816-1830: a width grows to the length of a text, which is looked up a second time; the tests before
    and the assignments after *)
Definition look_longer (n : nat) (text : looks string) : looks nat :=
  look s <- text; if (n <? slen s)%nat then (look s <- text; Stop (Ret (slen s))) else Stop (Ret n).
(** sarwin/sarwin.go:1815-1834: [n] peers more, from number [i] on *)
Fixpoint look_widths (i n : nat) (w : pwidths) : looks pwidths :=
  match n with
  | O => Stop (Ret w)
  | S n =>
      look a <- look_longer (pw_addr w) (look_at i p_addr);
      look e <- look_longer (pw_eid w) (look_at i p_eid);
      look r <- look_longer (pw_rx w) (look_at i p_canrx);
      look t <- look_longer (pw_tx w) (look_at i p_cantx);
      look c <- look_longer (pw_cre w) (look_time i p_created);
      look cre <- look_time i p_created;
      look m <- (if (pw_mod w <? slen cre)%nat then (look u <- look_time i p_updated; Stop (Ret (slen u))) else Stop (Ret (pw_mod w)));
      look_widths (S i) n {| pw_addr := a; pw_eid := e; pw_cre := c; pw_mod := m; pw_tx := t; pw_rx := r |}
  end.
(** sarwin/sarwin.go:1855-1863: the row of peer number [i].  Go leaves the order in which the members are looked up open; here it is
    that of the text. *)
Definition look_row (ws : list nat) (i : nat) : looks string :=
  look a <- look_at i p_addr;
  look f <- look_at i p_freespace;
  look e <- look_at i p_eid;
  look d <- look_at i p_maxdesc;
  look r <- look_at i p_canrx;
  look t <- look_at i p_cantx;
  look c <- look_time i p_created;
  look u <- look_time i p_updated;
  Stop (Ret (table_row "|" ws [a; itoa (f / 1024 / 1024); e; d; r; t; c; u])).
(** sarwin/sarwin.go:1854-1865: the rows of [n] peers, from number [i] on *)
Fixpoint look_rows (ws : list nat) (i n : nat) : looks (list string) :=
  match n with
  | O => Stop (Ret [])
  | S n => look l <- look_row ws i; look r <- look_rows ws (S i) n; Stop (Ret (l :: r))
  end.
(** sarwin/sarwin.go:1808-1876: the text that is shown.  A range looks at the length of the table once. *)
Definition peers_shown : looks string :=
  Look (fun ps => match ps with
  | [] => Stop (Ret "No Peers")
  | _ =>
      Look (fun ps =>
      look w <- look_widths 0 (List.length ps) {| pw_addr := 0; pw_eid := 0; pw_cre := 0; pw_mod := 0; pw_tx := 0; pw_rx := 0 |};
      let ws := peer_columns w in
      Look (fun ps =>
      look rows <- look_rows ws 0 (List.length ps);
      let border := table_row "+" ws (map dashes ws) in
      Stop (Ret (border ++ table_row "|" ws peer_titles ++ border ++ String.concat "" (sort_strings rows) ++ border))))
  end).

(** ** Both together *)
(** What is written before the first look, before the second one...; nothing more is written when this is at its end
    (sarwin/sarwin.go:1805-1886 and beacon/beacon.go:344-385 at the same time).  The result, the rest of the schedule and the table. *)
Fixpoint interleave {A} (m : looks A) (sched : list (list write)) (ps : list peer) : outcome A * (list (list write) * list peer) :=
  match m with
  | Stop o => (o, (sched, ps))
  | Look k => let ps := do_writes ps (hd [] sched) in interleave (k ps) (tl sched) ps
  end.
