(** * Send: the properties

    Statements only; the proofs are in SendMain.v. *)
From Verif Require Import GoBase GoFacts Flags SpecFlags FlagsFacts FlagStrFacts SarFacts Config Shipped ConfigFacts FlagsMain SpecWire Timestamp Data SpecFrames Beacon SpecBeacon BuildFacts BeaconMain Trans Sarnet Transfer SpecTransfer TransferMain Words SpecWords WordsFacts Cli SpecCli CliFacts CliFacts2 CliMain SpecRun RunFacts RunMain SpecSend SendMain.
Local Open Scope string_scope.
Local Open Scope N_scope.

(** C91: whatever happens, a beacon command sends, for each of its addresses in turn, at
    most the set number of copies of one beacon that says what the settings say, and
    nothing else *)
Theorem C91_at_most : forall s E i args s' ls, reachable s -> task_is s i (TStart ("beacon" :: args)) -> ystep s (YStep E i) = Some s' ->
  exists texts more bursts, beacon_targets (y_cli s) args = (texts ++ more)%list /\
    Forall2 (some_sent (fun E => In (YStep E i) ls) (y_cli s)) texts bursts /\ frames_by i (yrun s' ls) = concat bursts.
Proof. exact c91_at_most. Qed.
Print Assumptions C91_at_most.

(** C91: if the system lets it and its command has finished, it has sent exactly the set
    number of copies to each of its addresses, and nothing else *)
Theorem C91_exactly : forall (ok : cenv -> Prop) s E i args s' ls r, (forall E, ok E -> fair E /\ ce_resolve E = r) -> reachable s -> task_is s i (TStart ("beacon" :: args)) -> ystep s (YStep E i) = Some s' ->
  only_in ok i ls -> task_is (yrun s' ls) i TEnd ->
  exists bursts, Forall2 (all_sent ok r (y_cli s)) (beacon_targets (y_cli s) args) bursts /\ frames_by i (yrun s' ls) = concat bursts.
Proof. exact c91_exactly. Qed.
Print Assumptions C91_exactly.

(** C91: everything that is ever sent is a beacon of a beacon command, for one of its
    addresses, and says what the settings said when the command began *)
Theorem C91_only : forall fs cwd peers ls i to f, let s0 := ystart fs cwd peers in In (i, to, f) (y_sent (yrun s0 ls)) ->
  exists l1 E0 l2 args s' E text, ls = (l1 ++ YStep E0 i :: l2)%list /\
    task_is (yrun s0 l1) i (TStart ("beacon" :: args)) /\ ystep (yrun s0 l1) (YStep E0 i) = Some s' /\
    In (YStep E i) l2 /\ In text (beacon_targets (y_cli (yrun s0 l1)) args) /\ address (ce_resolve E) text = Some to /\
    beacon_of E to (y_cli (yrun s0 l1)) f.
Proof. exact c91_only. Qed.
Print Assumptions C91_only.

(** Three addresses and two beacons: two are sent to the second and two to the third *)
Example C91_ex :
  let s := yrun ex_ystart [YLine "s[1]:bcount 2"; YStep ex_cenv 0; YLine "s[2]:beacon 10.0.0.2 10.0.0.3 10.0.0.4"] in
  let s1 := yrun s [YStep ex_cenv 1] in
  let s2 := yrun s1 (repeat (YStep ex_cenv 1) 9) in
  task_is s 1 (TStart ["beacon"; "10.0.0.2"; "10.0.0.3"; "10.0.0.4"]) /\ ystep s (YStep ex_cenv 1) = Some s1 /\ fair ex_cenv /\
  task_is s2 1 TEnd /\ map (fun x => ua_ip (fst x)) (frames_by 1 s2) = ["10.0.0.3:7542"; "10.0.0.3:7542"; "10.0.0.4:7542"; "10.0.0.4:7542"].
Proof. exact c91_ex. Qed.
