(** * Node: the properties

    Statements only; the proofs are in NodeMain.v. *)
From Verif Require Import GoBase GoFacts Flags Config Shipped SpecFlags FlagsFacts ConfigFacts FlagsMain SpecWire SarFacts Timestamp SpecTime TimeMain Holes Data SpecFrames FrameFacts BuildFacts DataMain Status SpecStatus StatusMain Request SpecRequest RequestMain Beacon SpecBeacon BeaconMain Peers SpecPeers PeersMain Fileio SpecFileio FileioMain Dirent SpecDirent DirentMain Metadata SpecMetadata MetadataMain Trans Listen SpecListen ListenMain TransMain Daemon SpecDaemon DaemonMain Sarnet Transfer SpecTransfer TransferMain Words SpecWords WordsFacts Cli SpecCli CliFacts CliFacts2 CliMain SpecRun RunFacts RunMain SpecSend SendMain SpecShow ShowMain Node SpecNode NodeMain.
Local Open Scope string_scope.
Local Open Scope N_scope.

(** C98: the peers command of the running program never fails, and shows exactly the table
    that the beacons heard so far call for *)
Theorem C98_peers : forall mtu n E i, runs_to mtu n -> n_dead n = false -> task_is (n_cli n) i (TStart ["peers"]) ->
  exists n' ps, nstep mtu n (NStep E i) = Some n' /\ n_dead n' = false /\ right_table (heard_by n) ps /\
    only_shows (n_cli n) i (match heard_by n with [] => [Text WMsg "No Peers"] | _ => [Peers ps] end) (n_cli n').
Proof. exact c98_peers. Qed.
Print Assumptions C98_peers.

(** C99: what ends the running program, and nothing else does *)
Theorem C99_ends : forall mtu n l n', runs_to mtu n -> good_nlabel l -> nstep mtu n l = Some n' ->
  (n_dead n' = true <-> ends_program mtu n l).
Proof. exact c99_ends. Qed.
Print Assumptions C99_ends.

(** C100: nodes that hear only each other do not end each other, whatever the network loses,
    delays, repeats or swaps: a node ends only by what its own user types and runs, or because its own
    socket fails or its user quits *)
Theorem C100_peace : forall N fs cwd ls l st' k, good_wlabels ls -> good_wlabel l -> let st := wrun N (wstart fs cwd) ls in
  wstep N st l = Some st' -> n_dead (st k) = false -> n_dead (st' k) = true ->
  exists x, l = WOwn k x /\ by_itself (st k) x /\ ends_program (nw_mtu N k) (st k) x.
Proof. exact c100_peace. Qed.
Print Assumptions C100_peace.

(** C101: every entry in the table of a live node was told by another: it says what the
    settings of the sender said when its user gave a beacon command, and its address is the
    one the network gave to the datagram *)
Theorem C101_told : forall N fs cwd ls k p, good_wlabels ls -> let at_ l j := wrun N (wstart fs cwd) l j in
  n_dead (at_ ls k) = false -> In p (y_peers (n_cli (at_ ls k))) ->
  exists l1 l2 l3 j i args E text to m f now from,
    ls = (l1 ++ l2 ++ WArrive j m k f now from :: l3)%list /\
    task_is (n_cli (at_ l1 j)) i (TStart ("beacon" :: args)) /\
    In (WOwn j (NStep E i)) l2 /\
    In text (beacon_targets (y_cli (n_cli (at_ l1 j))) args) /\ address (ce_resolve E) text = Some to /\
    nw_carries N j to k f from = true /\
    p_addr p = ua_ip from /\ told E to (y_cli (n_cli (at_ l1 j))) p.
Proof. exact c101_told. Qed.
Print Assumptions C101_told.

(** C101: a beacon that the network carries, that fits and that finds the listener idle is
    in the table as soon as main has taken it *)
Theorem C101_heard : forall N fs cwd ls k j m i to d f now from now', good_wlabels ls -> good_now now -> good_now now' ->
  let at_ l j := wrun N (wstart fs cwd) l j in
  nth_error (y_sent (n_cli (at_ ls j))) m = Some (i, to, d) -> nw_carries N j to k f from = true -> fits_mtu (nw_mtu N k) d ->
  n_dead (at_ ls k) = false -> ds_listener (n_net (at_ ls k)) f = LRead ->
  let ls' := (ls ++ [WArrive j m k f now from; WOwn k (NNet (Meet (GListen f) GMain now'))])%list in
  n_dead (at_ ls' k) = false /\
  exists p l1 l2 args E, In p (y_peers (n_cli (at_ ls' k))) /\ p_addr p = ua_ip from /\
    ls = (l1 ++ l2)%list /\ task_is (n_cli (at_ l1 j)) i (TStart ("beacon" :: args)) /\ In (WOwn j (NStep E i)) l2 /\
    told E to (y_cli (n_cli (at_ l1 j))) p.
Proof. exact c101_heard. Qed.
Print Assumptions C101_heard.

(** A beacon has been heard; the command shows one peer *)
Example C98_peers_ex : runs_to 1500 ex_node_now /\ n_dead ex_node_now = false /\ task_is (n_cli ex_node_now) 0 (TStart ["peers"]) /\
  map sg_from (heard_by ex_node_now) = [Some "10.0.0.1"] /\
  option_map (fun n => map (fun s => match s with Peers ps => map p_addr ps | _ => [] end) (y_shown (n_cli n))) (nstep 1500 ex_node_now (NStep ex_cenv 0)) = Some [["10.0.0.1"]].
Proof. exact c98_peers_ex. Qed.

(** A request has been read: taking it ends the program, the peers command does not, a
    blank line does *)
Example C99_ends_ex : runs_to 1500 ex_node_now /\
  option_map n_dead (nstep 1500 ex_node_now (NNet (Meet (GListen V4) GMain ex_now))) = Some true /\
  option_map n_dead (nstep 1500 ex_node_now (NStep ex_cenv 0)) = Some false /\
  option_map n_dead (nstep 1500 ex_node_now (NLine "s[2]:  ")) = Some true /\
  option_map n_dead (nstep 1500 ex_node_now (NLine "s[2]:beacon v4")) = Some false.
Proof. exact c99_ends_ex. Qed.

(** The second node hears the first and lives; it ends when its user says so *)
Example C100_peace_ex : good_wlabels ex_hears /\ n_dead (ex_lan_at ex_hears 1) = false /\
  n_dead (ex_lan_at (ex_hears ++ [WOwn 1 (NLine "s[2]:exit")]) 1) = true /\ n_dead (ex_lan_at (ex_hears ++ [WOwn 1 (NLine "s[2]:exit")]) 0) = false.
Proof. exact c100_peace_ex. Qed.

(** The second node has the first in its table *)
Example C101_told_ex : good_wlabels ex_hears /\ n_dead (ex_lan_at ex_hears 1) = false /\
  map (fun p => (p_addr p, p_eid p, p_freespace p, p_canrx p)) (y_peers (n_cli (ex_lan_at ex_hears 1))) = [("10.0.0.1", "10.0.0.1:4000-77", 4000, "yes")].
Proof. exact c101_told_ex. Qed.
Example C101_heard_ex : (exists d, nth_error (y_sent (n_cli (ex_lan_at ex_sends 0))) 0 = Some (0%nat, {| ua_ip := "10.0.0.2:7542"; ua_port := 7542; ua_zone := "" |}, d) /\ fits_mtu 1500 d) /\
  nw_carries ex_lan 0 {| ua_ip := "10.0.0.2:7542"; ua_port := 7542; ua_zone := "" |} 1 V4 ex_from = true /\
  n_dead (ex_lan_at ex_sends 1) = false /\ ds_listener (n_net (ex_lan_at ex_sends 1)) V4 = LRead.
Proof. exact c101_heard_ex. Qed.
