(** * Run: the properties

    Statements only; the proofs are in RunMain.v. *)
From Verif Require Import GoBase GoFacts Flags SpecFlags FlagsFacts FlagStrFacts SarFacts FlagsMain Config ConfigFacts Shipped SpecWire Data SpecFrames BuildFacts Beacon SpecBeacon BeaconMain Timestamp Trans Sarnet Transfer Words SpecWords WordsFacts SpecTransfer TransferMain Cli SpecCli CliFacts CliFacts2 CliMain RunFacts SpecRun RunMain.
Local Open Scope string_scope.
Local Open Scope N_scope.

(** C66: unless txwilling is switched on or off, every flag keeps a valid value *)
Theorem C66_valid : forall s, reachable_by (fun ws => ~ spoils ws) s -> valid_settings (y_cli s).
Proof. exact c66_valid. Qed.
Print Assumptions C66_valid.

(** C66: as long as txwilling is not switched on or off, no step of a beacon command ends
    the process, and none is ever blocked *)
Theorem C66_alive : forall s E i todo, reachable_by (fun ws => ~ spoils ws) s -> y_dead s = false -> task_is s i (TBeacon todo) ->
  exists s', task_step E s i = Some s' /\ y_dead s' = false.
Proof. exact c66_alive. Qed.
Print Assumptions C66_alive.

(** C66: while txwilling is "on" or "off", the process ends when a beacon is about to be
    sent (defect) *)
Theorem C66_dies : forall s E i todo to v, reachable s -> value (y_cli s) (Flag "txwilling") = KText v -> v = "on" \/ v = "off" ->
  task_is s i (TBeacon todo) -> about_to_send E todo to -> task_step E s i = Some (y_kill s).
Proof. exact c66_dies. Qed.
Print Assumptions C66_dies.
Example C66_ex :
  let good := yrun ex_ystart [YLine "s[1]:txwilling capable"; YStep ex_cenv 0; YLine "s[2]:beacon 10.0.0.2"; YStep ex_cenv 1; YStep ex_cenv 1] in
  let bad := yrun ex_ystart [YLine "s[1]:txwilling on"; YStep ex_cenv 0; YLine "s[2]:beacon 10.0.0.2"; YStep ex_cenv 1] in
  value (y_cli good) (Flag "txwilling") = KText "capable" /\ y_dead good = false /\
  value (y_cli bad) (Flag "txwilling") = KText "on" /\ y_dead bad = false /\ task_is bad 1 (TBeacon [BHost false "10.0.0.2"]) /\
  y_dead (yrun bad [YStep ex_cenv 1]) = true.
Proof. exact c66_ex. Qed.

(** C87: which commands wait for the end of the transfer they start *)
Theorem C87_who : forall s E i cmd rest s' a b c w, task_is s i (TStart (cmd :: rest)) -> task_step E s i = Some s' ->
  task_is s' i (TAdd a b c w) ->
  In cmd ["get"; "getdir"; "take"; "put"; "putblind"; "give"; "delete"] /\ a = cmd /\
  (w = true <-> In cmd ["put"; "putblind"; "give"; "delete"]).
Proof. exact c87_who. Qed.
Print Assumptions C87_who.

(** C87: when such a command has added its transfer, it waits, and with it a new
    goroutine begins that is to do the transfer *)
Theorem C87_waits : forall s E i a b c s', task_is s i (TAdd a b c true) -> task_step E s i = Some s' ->
  s' = y_kill s \/
  exists t, task_is s' i (TWait (length (y_chans s)) t) /\ task_is s' (length (y_tasks s)) (TDo (Some (length (y_chans s)))).
Proof. exact c87_waits. Qed.
Print Assumptions C87_waits.

(** C87: ... and that goroutine does nothing but show an empty line and the line "Charles
    write some code to Do a transfer!!!!" and come to a standstill, without ever
    answering *)
Theorem C87_do : forall s E i ch s', task_is s i (TDo (Some ch)) -> task_step E s i = Some s' ->
  s' = y_show (become s i (TDo None)) [Text WMsg ""; Text WErr "Charles write some code to Do a transfer!!!!"] /\
  forall E', task_step E' s' i = None.
Proof. exact c87_do. Qed.
Print Assumptions C87_do.

(** C87: so the command never ends: it cannot make a step, now or ever *)
Theorem C87_never : forall s i ch t ls, reachable s -> task_is s i (TWait ch t) ->
  task_is (yrun s ls) i (TWait ch t) /\ forall E, task_step E (yrun s ls) i = None.
Proof. exact c87_never. Qed.
Print Assumptions C87_never.
Example C87_ex :
  let s := yrun ex_ystart [YLine "s[1]:put 10.0.0.2 a.txt"; YStep ex_cenv 0; YStep ex_cenv 0; YStep ex_cenv 1] in
  length (is_table (y_tran s)) = 1%nat /\ y_dead s = false /\ (exists t, task_is s 0 (TWait 0 t)) /\ task_is s 1 (TDo None).
Proof. exact c87_ex. Qed.

(** C88: from the moment a beacon command has the settings until it has finished, no
    setting changes, and neither do the flags and the number of its beacons, whatever
    else is typed *)
Theorem C88_frozen : forall ls s i todo todo', reachable s -> task_is s i (TBeacon todo) -> task_is (yrun s ls) i (TBeacon todo') ->
  y_cli (yrun s ls) = y_cli s /\ bc_count (y_beacon (yrun s ls)) = bc_count (y_beacon s) /\ bc_flags (y_beacon (yrun s ls)) = bc_flags (y_beacon s).
Proof. exact c88_frozen. Qed.
Print Assumptions C88_frozen.

(** C88: one beacon command at a time *)
Theorem C88_one : forall s i j t u, reachable s -> task_is s i (TBeacon t) -> task_is s j (TBeacon u) -> i = j.
Proof. exact c88_one. Qed.
Print Assumptions C88_one.

(** C88: a goroutine that begins waits exactly if its command reads or changes the
    settings and a beacon command is not finished *)
Theorem C88_waits : forall s j args, reachable s -> task_is s j (TStart args) ->
  exists cmd rest, args = cmd :: rest /\ In cmd command_names /\
    forall E, task_step E s j = None <-> In cmd locking /\ exists i todo, task_is s i (TBeacon todo).
Proof. exact c88_waits. Qed.
Print Assumptions C88_waits.
Example C88_ex :
  let s := yrun ex_ystart [YLine "s[1]:beacon 10.0.0.2"; YStep ex_cenv 0; YLine "s[2]:stream yes"; YLine "s[3]:tran"] in
  task_is s 0 (TBeacon [BHost false "10.0.0.2"]) /\ task_step ex_cenv s 1 = None /\ task_step ex_cenv s 2 <> None /\
  let s' := yrun s [YStep ex_cenv 0; YStep ex_cenv 1; YStep ex_cenv 0; YStep ex_cenv 0; YStep ex_cenv 0; YStep ex_cenv 0; YStep ex_cenv 0] in
  task_is s' 0 TEnd /\ value (y_cli s') (Flag "stream") = KText "no" /\ value (y_cli (yrun s' [YStep ex_cenv 1])) (Flag "stream") = KText "yes".
Proof. exact c88_ex. Qed.

(** C89: "beacon" reports the multicast groups that were ever asked for, and nothing
    else: the addresses given to beacon commands are never reported, "beacon off" has no
    effect, and it is not said whether a beacon was or will be sent (defect) *)
Theorem C89_status : forall fs cwd peers ls E i s' v4 v6, let s0 := ystart fs cwd peers in let s := yrun s0 ls in
  task_is s i (TStart ["beacon"]) -> ystep s (YStep E i) = Some s' ->
  (v4 = true <-> was_begun "v4" s0 ls) -> (v6 = true <-> was_begun "v6" s0 ls) ->
  y_shown s' = (y_shown s ++ beacon_status (cl_bcount (y_cli s)) v4 v6)%list /\ task_is s' i (TBeacon []).
Proof. exact c89_status. Qed.
Print Assumptions C89_status.
Example C89_ex :
  let s := yrun ex_ystart [YLine "s[1]:beacon v4"; YStep ex_cenv 0; YStep ex_cenv 0; YStep ex_cenv 0; YStep ex_cenv 0; YStep ex_cenv 0; YStep ex_cenv 0; YStep ex_cenv 0;
                           YLine "s[2]:beacon off"; YStep ex_cenv 1; YStep ex_cenv 1; YLine "s[3]:beacon"; YStep ex_cenv 2] in
  task_is s 0 TEnd /\ task_is s 1 TEnd /\ task_is s 2 (TBeacon []) /\
  exists l, y_shown s = (l ++ [Text WMsg "Beacons Disabled"; Text WMsg ("Sending 3 IPv4 multicast beacons" ++ nl)])%list.
Proof. exact c89_ex. Qed.
