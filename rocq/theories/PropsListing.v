(** * Listing: the properties

    Statements only; the proofs are in ListingMain.v. *)
From Verif Require Import GoBase Flags Config Shipped Timestamp Data Beacon Fileio Sarnet Transfer Words Clock SpecFlags SpecWire SpecFrames SpecPeers SpecClock SpecTable SarFacts ShowMain Table TableFacts TableMain PeersMain Listing SpecListing ListingFacts ListingMain.
From Coq Require Import Lia Permutation.
Local Open Scope string_scope.
Local Open Scope N_scope.

(** C153: what the main loop writes while a history of beacons arrives is, when all of it is done, what registering the
    beacons one after the other does. *)
Theorem C153_writes : forall ps hist, (forall s, In s hist -> good_now (sg_now s)) -> (forall p, In p ps -> timed_peer p) ->
  exists ws ps' reps, history_writes ps hist = Ret ws /\ register_all ps hist = Ret (ps', reps) /\ do_writes ps ws = ps'.
Proof. exact c153_writes. Qed.
Print Assumptions C153_writes.

(** C153: whenever the beacons arrive, before, between and after the looks of the command at the table: the command ends, and what
    it shows is made of what was there and what the beacons said. *)
Theorem C153_shown : forall ps hist ws sched rest,
  (forall s, In s hist -> good_now (sg_now s)) -> (forall p, In p ps -> timed_peer p) ->
  history_writes ps hist = Ret ws -> ws = (concat sched ++ rest)%list ->
  exists text, fst (interleave peers_shown sched ps) = Ret text /\ listing_seen ps hist text.
Proof. exact c153_shown. Qed.
Print Assumptions C153_shown.

(** C153: if nothing arrives, it is the table of C103. *)
Theorem C153_quiet : forall ps sched, (forall p, In p ps -> timed_peer p) -> concat sched = [] ->
  fst (interleave peers_shown sched ps) = match ps with [] => Ret "No Peers" | _ => peers_text ps end.
Proof. exact c153_quiet. Qed.
Print Assumptions C153_quiet.

(** C153 (defect): while one beacon changes one entry, the command can show every mixture of the old and the new members of the entry,
    down to the seconds of one time with the nanoseconds of the other; the columns are still those for the old entry. *)
Theorem C153_mixture : forall l p r s, let ps := (l ++ p :: r)%list in
  (forall p, In p ps -> timed_peer p) -> good_now (sg_now s) ->
  sg_from s = Some (p_addr p) -> ~ In (p_addr p) (map p_addr l) -> ~ shows p (sg_beacon s) ->
  forall c : choice, exists ws q m sched rest text head rows,
    register_all ps [s] = Ret ((l ++ q :: r)%list, [true]) /\ shows q (sg_beacon s) /\ p_updated q = stamp_at (sg_now s) /\
    mixture c p q m /\
    history_writes ps [s] = Ret ws /\ ws = (concat sched ++ rest)%list /\
    fst (interleave peers_shown sched ps) = Ret text /\
    text = table_text (border_of "+" (peer_widths_of ps)) head rows /\
    row_of "|" (peer_widths_of ps) ["IP"; "GB"; "EID"; "Des"; "Rx"; "Tx"; "Created"; "Modified"] head /\ ordered rows /\
    (exists order, Permutation order (l ++ m :: r) /\ Forall2 (row_of_peer (peer_widths_of ps)) order rows) /\
    (forall n, columns (bytes_of (p_eid m)) n -> (Nat.max 3 (longest (map p_eid ps)) < n)%nat ->
       ~ aligned (border_of "+" (peer_widths_of ps) :: rows)).
Proof. exact c153_mixture. Qed.
Print Assumptions C153_mixture.

(** C153: the hypothesis on the table holds of every table that beacons have made. *)
Theorem C153_timed : forall hist, (forall s, In s hist -> good_now (sg_now s)) ->
  exists ps reps, register_all [] hist = Ret (ps, reps) /\ forall p, In p ps -> timed_peer p.
Proof. exact c153_timed. Qed.
Print Assumptions C153_timed.
Example C153_timed_ex : register_all [] [ex_old] = Ret (ex_table, [true]).
Proof. exact c153_timed_ex. Qed.
Example C153_writes_ex : exists ws, history_writes ex_table [ex_new; ex_else] = Ret ws /\ List.length ws = 11%nat /\ List.length (do_writes ex_table ws) = 2%nat.
Proof. exact c153_writes_ex. Qed.

(** The other peer arrives when the first row has been read: it has no row. *)
Example C153_shown_ex : (forall p, In p ex_table -> timed_peer p) /\ (forall s, In s [ex_else] -> good_now (sg_now s)) /\
  exists w text, history_writes ex_table [ex_else] = Ret [w] /\
    fst (interleave peers_shown (repeat [] 40 ++ [[w]]) ex_table) = Ret text /\ peers_text ex_table = Ret text /\
    fst (interleave peers_shown [[w]] ex_table) <> Ret text.
Proof. exact c153_shown_ex. Qed.
Example C153_quiet_ex : fst (interleave peers_shown [[]; []; []] ex_table) = peers_text ex_table /\ fst (interleave peers_shown [] []) = Ret "No Peers" /\
  exists text, peers_text ex_table = Ret text.
Proof. exact c153_quiet_ex. Qed.
Example C153_mixture_ex : ~ shows (hd (fresh_peer (sg_now ex_old) (sg_beacon ex_old) "") ex_table) (sg_beacon ex_new) /\
  exists m, mixture ex_choice (fresh_peer (sg_now ex_old) (sg_beacon ex_old) "10.0.0.1") (fresh_peer (sg_now ex_new) (sg_beacon ex_new) "10.0.0.1") m /\
    p_freespace m / 2 ^ 20 = 9 /\ p_eid m = "ab" /\ t_secs (p_updated m) = 1700000060 /\ t_nsecs (p_updated m) = 5.
Proof. exact c153_mixture_ex. Qed.
