(** * Specification vocabulary for runs of the command line *)

From Verif Require Import GoBase Flags SpecFlags Config Shipped Data SpecFrames Beacon SpecBeacon Trans Sarnet Transfer Words SpecWords Cli SpecCli.
Local Open Scope string_scope.
Local Open Scope N_scope.

(** A state the program can be in: whatever is typed, however the goroutines are
    scheduled, whatever the system answers *)
Definition reachable (s : ystate) : Prop := exists fs cwd peers ls, s = yrun (ystart fs cwd peers) ls.
(** ... when only lines for which [ok] holds of the words are entered *)
Definition reachable_by (ok : list string -> Prop) (s : ystate) : Prop :=
  exists fs cwd peers ls, s = yrun (ystart fs cwd peers) ls /\ forall line ws, In (YLine line) ls -> asks line ws -> ok ws.

(** Goroutine [i] is [t] *)
Definition task_is (s : ystate) (i : nat) (t : task) : Prop := nth_error (y_tasks s) i = Some t.

(** Every flag has one of its values *)
Definition valid_settings (c : cliflags) : Prop := forall f v, value c (Flag f) = KText v -> valid_setting sar (f, v).
(** The words that set txwilling to a value it does not have *)
Definition spoils (ws : list string) : Prop := ws = ["txwilling"; "on"] \/ ws = ["txwilling"; "off"].

(** The beacon command is about to send to [to] *)
Definition about_to_send (E : cenv) (todo : list bact) (to : udpaddr) : Prop :=
  exists text rest, (todo = BHost false text :: rest \/ todo = BGroup text :: rest) /\
    udp_address (ce_resolve E) text = (Some to, None) /\ ce_dial E to <> None.

(** ** The lock of the settings *)

(** The commands that read or change the settings *)
Definition locking : list string :=
  ["bcount"; "beacon"; "checksum"; "descriptor"; "freespace"; "interval"; "reqtstamp"; "rxwilling"; "stream"; "timeout"; "timestamp"; "timezone"; "txwilling"].

(** ** What the beacon command says *)

(** In the run [ls] from [s], a goroutine with the words "beacon" and [w] began *)
Definition was_begun (w : string) (s : ystate) (ls : list ylabel) : Prop :=
  exists l1 E i l2 s1, ls = (l1 ++ YStep E i :: l2)%list /\ task_is (yrun s l1) i (TStart ["beacon"; w]) /\ ystep (yrun s l1) (YStep E i) = Some s1.
(** What "beacon" without arguments says, when [v4] and [v6] tell whether the multicast
    groups were asked for *)
Definition beacon_status (count : N) (v4 v6 : bool) : list shown :=
  if v4 || v6 then
    ((if v4 then [Text WMsg ("Sending " ++ itoa count ++ " IPv4 multicast beacons" ++ nl)] else []) ++
     (if v6 then [Text WMsg ("Sending " ++ itoa count ++ " IPv6 multicast beacons" ++ nl)] else []))%list
  else [Text WMsg "No beacons currently being sent"].
