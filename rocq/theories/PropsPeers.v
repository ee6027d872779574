(** * Peers: the properties

    Statements only; the proofs are in PeersMain.v. *)
From Verif Require Import GoBase GoFacts Flags SpecFlags FlagsFacts Config Shipped ConfigFacts SpecWire SarFacts Timestamp SpecTime TimeMain Data SpecFrames FrameFacts FlagStrFacts BuildFacts Beacon Peers SpecPeers PeersMain.
Local Open Scope string_scope.
Local Open Scope N_scope.

(** C41: one call: the sender's entry is changed in place, or added at the end;
    all other entries stay as they are and where they are. *)
Theorem C41_one_call : forall now ps b a, good_now now -> exists ps' p' rep,
  new_peer now ps b (Some a) = Ret (ps', rep) /\ p_addr p' = a /\ shows p' b /\
  ((~ In a (map p_addr ps) /\ ps' = (ps ++ [p'])%list /\ rep = true) \/
   (exists l p r, ps = (l ++ p :: r)%list /\ ps' = (l ++ p' :: r)%list /\ p_addr p = a /\ ~ In a (map p_addr l) /\
      p_created p' = p_created p /\ (rep = false <-> p' = p) /\ (rep = false <-> shows p b))).
Proof. exact c41_one_call. Qed.
Print Assumptions C41_one_call.

(** C41: a call without a sender does nothing. *)
Theorem C41_no_sender : forall now ps b, new_peer now ps b None = Ret (ps, false).
Proof. exact c41_no_sender. Qed.
Print Assumptions C41_no_sender.

(** C41: after any history, starting from an empty table: one entry for every
    address heard from and no other; the entry shows the latest beacon of the
    address, was created at the time of the first, and updated at the time of the
    latest that said something new; every call reported exactly the news. *)
Theorem C41_history : forall hist, (forall s, In s hist -> good_now (sg_now s)) ->
  exists ps reps, register_all [] hist = Ret (ps, reps) /\
    NoDup (map p_addr ps) /\
    (forall a, In a (map p_addr ps) <-> exists s, In s hist /\ sg_from s = Some a) /\
    (forall p, In p ps -> right_entry hist p) /\
    length reps = length hist /\
    (forall i s, nth_error hist i = Some s -> (nth_error reps i = Some true <-> is_news (firstn i hist) s)).
Proof. exact c41_history. Qed.
Print Assumptions C41_history.

(** C42: in every schedule of any number of concurrent calls, the entries of an
    address are those that were there plus one for every call that did not find
    the address when it looked. *)
Theorem C42_count : forall cs sched pcs ps pcs' ps', (forall c, In c cs -> good_now (c_now c)) ->
  run_calls cs sched pcs ps = Ret (pcs', ps') ->
  forall a, (entries a ps' + added a cs pcs = entries a ps + added a cs pcs')%nat.
Proof. exact c42_count. Qed.
Print Assumptions C42_count.

(** C42: two calls for an address that is not in the table, in every one of their
    interleavings: two entries exactly when both calls look before either one
    adds; otherwise one. *)
Theorem C42_two_callers : forall c1 c2 ps a, good_now (c_now c1) -> good_now (c_now c2) ->
  c_addr c1 = a -> c_addr c2 = a -> entries a ps = 0%nat ->
  forall sched, Permutation sched [0; 0; 1; 1]%nat ->
  exists pcs' ps', run_calls [c1; c2] sched [Start; Start] ps = Ret (pcs', ps') /\
    entries a ps' = (if Nat.eqb (hd 0%nat sched) (hd 0%nat (tl sched)) then 1 else 2)%nat.
Proof. exact c42_two_callers. Qed.
Print Assumptions C42_two_callers.
Example C41_history_ex : (forall s, In s ex_hist -> good_now (sg_now s)) /\
  exists p1 p2, register_all [] ex_hist = Ret ([p1; p2], [true; true; false; true; false]) /\
    p_freespace p1 = 60000 /\ p_canrx p1 = "yes" /\ t_secs (p_created p1) = 1700000000 /\ t_secs (p_updated p1) = 1700000060 /\
    p_freespace p2 = 70000.
Proof. exact c41_history_ex. Qed.
Example C42_two_callers_ex : good_now (c_now ex_c1) /\ good_now (c_now ex_c2) /\ entries "10.0.0.1" [] = 0%nat /\
  (exists pcs ps, run_calls [ex_c1; ex_c2] [0; 1; 0; 1]%nat [Start; Start] [] = Ret (pcs, ps) /\ entries "10.0.0.1" ps = 2%nat) /\
  (exists pcs ps, run_calls [ex_c1; ex_c2] [0; 0; 1; 1]%nat [Start; Start] [] = Ret (pcs, ps) /\ entries "10.0.0.1" ps = 1%nat).
Proof. exact c42_two_callers_ex. Qed.
