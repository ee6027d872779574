(** * Focus: the properties

    Statements only; the proofs are in FocusMain.v. *)
From Verif Require Import GoBase Sarnet Table Flags Config Shipped Screen Words Cli SpecWords FlagStrFacts WordsFacts CliFacts Focus SpecFocus FocusFacts FocusMain.
From Coq Require Import List String Ascii Bool Arith Lia.
Local Open Scope string_scope.

(** C142: whatever commands are at work, they can all finish *)
Theorem C142_ends : forall d, exists is, idle (drun d (map DStep is)).
Proof. exact c142_ends. Qed.
Print Assumptions C142_ends.

(** C142: a user who waits for each command keeps the keyboard in the command window, and every line
    entered is run *)
Theorem C142_waits : forall lines d, waits dstart lines d -> d_focus d = VCmd /\ d_line d = "" /\ d_ran d = lines.
Proof. exact c142_waits. Qed.
Print Assumptions C142_waits.

(** C142 (defect): with two [clear] commands at once the keyboard can end up in any window that one of
    them clears.  Nothing is at work any more then. *)
Theorem C142_lost : forall d line1 vs1 line2 vs2 v, d_focus d = VCmd -> d_line d = "" -> idle d ->
  wants line1 vs1 -> In v vs1 -> wants line2 vs2 -> vs2 <> [] ->
  exists is, let d' := drun d (type line1 ++ type line2 ++ map DStep is) in
    idle d' /\ d_focus d' = v /\ d_ran d' = (d_ran d ++ [line1; line2])%list.
Proof. exact c142_lost. Qed.
Print Assumptions C142_lost.

(** C142 (defect): then nothing that is typed arrives, and Enter runs nothing, until Ctrl-Space is pressed *)
Theorem C142_deaf : forall d ls, d_focus d <> VCmd -> idle d -> ~ In DSwitch ls ->
  d_focus (drun d ls) = d_focus d /\ d_line (drun d ls) = d_line d /\ d_ran (drun d ls) = d_ran d /\ d_clears (drun d ls) = d_clears d.
Proof. exact c142_deaf. Qed.
Print Assumptions C142_deaf.

(** C142: Ctrl-Space, pressed once to three times, brings the keyboard back *)
Theorem C142_back : forall d, exists n, n <= 3 /\ d_focus (drun d (repeat DSwitch n)) = VCmd.
Proof. exact c142_back. Qed.
Print Assumptions C142_back.

(** C142: Ctrl-Space goes on to the next window, to the one for packets only if Ctrl-P was pressed an odd number of times before *)
Theorem C142_round : forall ls, d_focus (drun dstart (ls ++ [DSwitch])) = window_after (Nat.odd (ctrl_p ls)) (d_focus (drun dstart ls)).
Proof. exact c142_round. Qed.
Print Assumptions C142_round.

(** C142: without Ctrl-Space the keyboard is in the command window or in a window that some command entered before
    was asked to clear *)
Theorem C142_where : forall ls, ~ In DSwitch ls -> let d := drun dstart ls in
  d_focus d = VCmd \/ exists line vs, In line (d_ran d) /\ wants line vs /\ In (d_focus d) vs.
Proof. exact c142_where. Qed.
Print Assumptions C142_where.

(** C142: a window that no command was asked to clear keeps every text that arrived for it, whatever else is cleared *)
Theorem C142_kept : forall ls v, let d := drun dstart ls in v <> VCmd ->
  (forall line vs, In line (d_ran d) -> wants line vs -> ~ In v vs) -> d_text d v = printed v ls.
Proof. exact c142_kept. Qed.
Print Assumptions C142_kept.

(** C142: when a [clear] command has finished, its windows show at most what arrived after it was entered *)
Theorem C142_gone : forall d line vs v ls, d_focus d = VCmd -> d_line d = "" -> wants line vs -> In v vs ->
  let d' := drun d (type line ++ ls) in
  (exists k, nth_error (d_clears d') (List.length (d_clears d)) = Some k /\ k_left k = []) ->
  exists before, printed v ls = (before ++ d_text d' v)%list.
Proof. exact c142_gone. Qed.
Print Assumptions C142_gone.
Example C142_ex :
  wants "clear err" [VErr] /\ wants " clear" [VMsg; VErr; VPacket] /\
  (let d := drun dstart (type "clear msg" ++ type "clear" ++ map DStep [0; 0; 1; 0; 0; 1; 1; 1; 1; 1; 1; 1; 1; 1; 1; 1]) in
   d_focus d = VMsg /\ map k_left (d_clears d) = [[]; []] /\ d_ran (drun d (type "help")) = ["clear msg"; "clear"]) /\
  waits dstart ["clear err"; "help"] (drun dstart (type "clear err" ++ [DPrint VErr "x"; DStep 0; DStep 0; DStep 0; DStep 0; DPrint VErr "y"] ++ type "help")) /\
  d_text (drun dstart (type "clear err" ++ [DPrint VErr "x"; DStep 0; DStep 0; DStep 0; DStep 0; DPrint VErr "y"])) VErr = ["y"].
Proof. exact c142_ex. Qed.
