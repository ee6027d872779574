(** * Table: the properties

    Statements only; the proofs are in TableMain.v. *)
From Verif Require Import GoBase GoFacts FileioFacts Flags SpecFlags Config Shipped SpecWire SarFacts Timestamp SpecTime TimeMain Data SpecFrames Beacon SpecPeers PeersMain Fileio Trans Listen SpecListen Daemon SpecDaemon DaemonMain Sarnet SarnetMain Transfer TransferMain SpecWords Words WordsFacts TextFacts Cli SpecCli SpecRun ShowMain Node SpecNode NodeMain Clock SpecClock ClockFacts ClockMain Table SpecTable TableFacts TableMain.
From Coq Require Import Sorted Permutation.
Local Open Scope string_scope.
Local Open Scope N_scope.

(** C103: the table of the peers command.  One row for each peer, sorted, under a
    heading and between borders; each row says the peer's address, free space in whole
    gigabytes, endpoint, descriptor, willingness and the UTC times of its first and
    latest change.  The lines of the table take the same number of columns exactly when
    no peer uses 128 bit descriptors and none has a million gigabytes free (defect). *)
Theorem C103_table : forall mtu n, runs_to mtu n -> n_dead n = false -> y_peers (n_cli n) <> [] ->
  let ps := y_peers (n_cli n) in
  exists text head rows,
    peers_text ps = Ret text /\ peers_table ps head rows text /\
    ((exists p, In p ps /\ (2 <= String.length (p_addr p))%nat) ->
     (aligned (border_of "+" (peer_widths_of ps) :: head :: rows) <->
      forall p, In p ps -> p_maxdesc p <> "d128" /\ p_freespace p < 10 ^ 6 * 2 ^ 20)).
Proof. exact c103_table. Qed.
Print Assumptions C103_table.

(** The program has heard one beacon *)
Example C103_table_ex : runs_to 1500 ex_node_now /\ n_dead ex_node_now = false /\ map p_addr (y_peers (n_cli ex_node_now)) = ["10.0.0.1"] /\
  peers_text (y_peers (n_cli ex_node_now)) = Ret
"+--------+------+----+---+--+--+--------------------------------+--------------------------------+
|      IP|    GB| EID|Des|Rx|Tx|                         Created|                        Modified|
+--------+------+----+---+--+--+--------------------------------+--------------------------------+
|10.0.0.1|     0|eid!|d16|no|no|Tue Nov 14 22:13:20.000 2023 UTC|Tue Nov 14 22:13:20.000 2023 UTC|
+--------+------+----+---+--+--+--------------------------------+--------------------------------+
".
Proof. exact c103_table_ex. Qed.

(** A peer with 128 bit descriptors has a longer row *)
Example C103_longer_ex :
  let at_ := stamp_at {| unix_secs := 1700000000; unix_nanos := 5 |} in
  let p a f e d := {| p_addr := a; p_freespace := f; p_eid := e; p_maxdesc := d; p_canrx := "yes"; p_cantx := "no"; p_created := at_; p_updated := at_ |} in
  peers_text [p "10.0.0.17" 52428800 "e" "d128"; p "10.0.0.1" 0 "other" "d32"] = Ret
"+---------+------+-----+---+---+--+--------------------------------+--------------------------------+
|       IP|    GB|  EID|Des| Rx|Tx|                         Created|                        Modified|
+---------+------+-----+---+---+--+--------------------------------+--------------------------------+
| 10.0.0.1|     0|other|d32|yes|no|Tue Nov 14 22:13:20.000 2023 UTC|Tue Nov 14 22:13:20.000 2023 UTC|
|10.0.0.17|    50|    e|d128|yes|no|Tue Nov 14 22:13:20.000 2023 UTC|Tue Nov 14 22:13:20.000 2023 UTC|
+---------+------+-----+---+---+--+--------------------------------+--------------------------------+
".
Proof. exact c103_longer_ex. Qed.

(** C104: the table of transfers.  One row for each transfer, sorted, under a heading
    and between borders; each row says the transfer's type, peer and file, and that the
    program initiated it, even if it answers a peer (defect).  That word is wider than
    its column, so the lines of the table never take the same number of columns
    (defect). *)
Theorem C104_table : forall ts, exists head rows,
  transfers_table (fun t => ["Initiator"; tr_ttype t; udpaddr_string (tr_peer t); tr_filename t]) ts head rows (info_text ts) /\
  (ts <> [] -> ~ aligned (border_of "|" (transfer_widths_of ts) :: rows)).
Proof. exact c104_table. Qed.
Print Assumptions C104_table.

(** Two transfers, the second the answer to a peer *)
Example C104_table_ex :
  let t := ex_transfer 3 ex_peer "b.txt" in
  let answer := {| tr_direction := false; tr_session := 4; tr_conn := tr_conn t; tr_peer := ex_peer; tr_ttype := "put"; tr_tstamptype := ""; tr_filename := "a";
    tr_fp := None; tr_filemeta := None; tr_csumtype := ""; tr_havemeta := false; tr_checksum := []; tr_dir := None; tr_data := []; tr_progress := 0; tr_inrespto := 0;
    tr_curfills := []; tr_cliflags := None |} in
  transfer_print answer = "Responder|put|10.0.0.1:7542|a" /\
  info_text [t; answer] =
"|------|--------|-------------|-----|
|Direct|Tran Typ|           IP|Fname|
|------|--------|-------------|-----|
|Initiator|     get|10.0.0.1:7542|b.txt|
|Initiator|     put|10.0.0.1:7542|    a|
|------|--------|-------------|-----|
".
Proof. exact c104_table_ex. Qed.
