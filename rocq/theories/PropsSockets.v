(** * Sockets: the properties

    Statements only; the proofs are in SocketsMain.v. *)
From Verif Require Import GoBase GoFacts Config Trans Fileio FileioMain Transfer SpecTransfer TransferMain Shipped Sockets SpecSockets SocketsMain.
From Coq Require Import Permutation.
Local Open Scope string_scope.
Local Open Scope N_scope.

(** C162: whatever happens, the transfers started are those of the table and those removed; the sockets and files of the table
    are open, and those of removed transfers are still open except for those that the garbage collector has closed. *)
Theorem C162_bounds : forall sardir hs s s' started, fresh s -> ld_run sardir hs s = Ret (s', started) ->
  exists removed, Permutation started (is_table (lg_i s') ++ removed) /\
    (lg_beacons s' + connected (is_table (lg_i s')) <= lg_socks s' <= lg_beacons s' + connected started)%nat /\
    (with_file (is_table (lg_i s')) <= lg_files s' <= with_file started)%nat.
Proof. exact c162_bounds. Qed.
Print Assumptions C162_bounds.

(** C162: the program itself closes nothing of a transfer: until the garbage collector runs, every socket and every file of every
    transfer ever started is open, whatever has been removed. *)
Theorem C162_open : forall sardir hs s s' started, fresh s -> no_collection hs -> ld_run sardir hs s = Ret (s', started) ->
  lg_socks s' = (lg_beacons s' + connected started)%nat /\ lg_files s' = with_file started.
Proof. exact c162_open. Qed.
Print Assumptions C162_open.

(** C162: a garbage collector that closes all it may leaves those of the table (and of beacons) open. *)
Theorem C162_collected : forall sardir hs s s1 started, fresh s -> ld_run sardir hs s = Ret (s1, started) ->
  exists s', ld_run sardir (hs ++ [HCollect (lg_socks s1) (lg_files s1)]) s = Ret (s', started) /\ lg_i s' = lg_i s1 /\
    lg_socks s' = (lg_beacons s' + connected (is_table (lg_i s')))%nat /\ lg_files s' = with_file (is_table (lg_i s')).
Proof. exact c162_collected. Qed.
Print Assumptions C162_collected.

(** C162: once the sockets that the system has are open, no transfer that is started gets a connection, however many of the others
    are removed, until the garbage collector runs. *)
Theorem C162_exhausted : forall limit sardir hs s s' started,
  limited limit sardir hs s -> no_collection hs -> no_beacons hs -> (limit <= lg_socks s)%nat ->
  ld_run sardir hs s = Ret (s', started) -> connected started = 0%nat /\ lg_socks s' = lg_socks s.
Proof. exact c162_exhausted. Qed.
Print Assumptions C162_exhausted.

(** C162: then transfers are started in vain: one that is started gets no connection, and the start after it is refused, and
    leaves the table as it was with or without that one. *)
Theorem C162_vain : forall sardir E c i ttype peer fname i1 t, Forall (fun u => tr_conn u <> None) (is_table i) -> ie_dial E peer = false ->
  new_initiator E sardir c i ttype peer fname = Ret (i1, Some t) ->
  tr_conn t = None /\
  forall E' c' ttype' peer' fname', exists i2, new_initiator E' sardir c' i1 ttype' peer' fname' = Ret (i2, None) /\
    (is_table i2 = is_table i \/ is_table i2 = (is_table i ++ [t])%list) /\
    (is_table i2 = is_table i <-> find (in_the_way (overwrites (is_fs i1) (is_cwd i1) sardir ttype' fname') fname' peer') (is_table i) = None).
Proof. exact c162_vain. Qed.
Print Assumptions C162_vain.
Example C162_open_ex :
  fresh exs_fresh /\ no_collection exs_round /\ exs_get (ld_run "/" exs_round exs_fresh) = (0, 2, 2, 2)%nat /\
  exs_get (ld_run "/" (exs_round ++ [HBeacons true; HCollect 1 5]) exs_fresh) = (0, 2, 2, 0)%nat.
Proof. exact c162_open_ex. Qed.
Example C162_exhausted_ex :
  let hs := [HStart exs_off sar_cli "put" ex_peer "s/a"; HStart exs_off sar_cli "put" ex_peer2 "s/a"; HStart exs_off sar_cli "put" ex_peer "s/a"] in
  lg_socks exs_full = 2%nat /\ limited 2 "/" hs exs_full /\ no_collection hs /\ no_beacons hs /\
  exs_get (ld_run "/" hs exs_full) = (1, 2, 2, 4)%nat.
Proof. exact c162_exhausted_ex. Qed.
Example C162_vain_ex : exists i1 t, Forall (fun u => tr_conn u <> None) (is_table exi_s1) /\ ie_dial exs_off ex_peer2 = false /\
  new_initiator exs_off "/s" sar_cli exi_s1 "put" ex_peer2 "a" = Ret (i1, Some t) /\
  new_initiator exi_env "/s" sar_cli i1 "put" ex_peer2 "b" = Ret (with_table i1 (is_table exi_s1), None).
Proof. exact c162_vain_ex. Qed.
