(** * Screen: the properties

    Statements only; the proofs are in ScreenMain.v. *)
From Verif Require Import GoBase Sarnet FlagStrFacts Table Screen SpecScreen ScreenFacts ScreenMain.
From Coq Require Import ZArith List String Ascii Bool NArith Lia Permutation.
Local Open Scope string_scope.
Local Open Scope Z_scope.

(** C105: The user interface goes on until Ctrl-C is pressed or the terminal has less than 12
    columns or less than 12 rows when the screen is drawn; then the program ends. *)
Theorem C105_ends : forall prompt ls,
  c_end (crun prompt cstart ls) = fate false ls /\
  (c_end (crun prompt cstart ls) = None <-> (forall cols rows, In (cols, rows) (sizes ls) -> 12 <= cols /\ 12 <= rows) /\ ~ In ECtrlC (events ls)).
Proof. exact c105_ends. Qed.
Print Assumptions C105_ends.
Example C105_ends_ex :
  c_end (crun "saratoga" cstart [CLoop EResize 80 24; CLoop ECtrlP 12 12; CPrint VMsg true "" "x"; CLoop (EText 0) 12 11; CLoop ECtrlC 80 24]) = Some InvalidDimensions /\
  c_end (crun "saratoga" cstart [CLoop EResize 80 24; CLoop ECtrlC 80 24]) = Some Quit.
Proof. exact c105_ends_ex. Qed.

(** C106: On a terminal of any size the program runs on, the messages, the command line and the errors
    share the whole screen without overlap; the packet window covers its part of the messages
    exactly after an odd number of presses of Ctrl-P, whatever else was done. *)
Theorem C106_seen : forall prompt ls cols rows,
  let s := crun prompt cstart ls in
  c_end s = None -> size ls = Some (cols, rows) ->
  (forall x y, on_terminal cols rows x y ->
     (exists v, seen (c_windows s) x y v) /\
     (forall v, seen (c_windows s) x y v <->
        share cols rows v x y /\ (v = VPacket -> packets_on ls = true) /\
        (v = VMsg -> ~ (packets_on ls = true /\ share cols rows VPacket x y)))) /\
  (forall x y v, seen (c_windows s) x y v -> on_terminal cols rows x y).
Proof. exact c106_seen. Qed.
Print Assumptions C106_seen.
Example C106_seen_ex :
  let s := crun "saratoga" cstart [CLoop EResize 80 24; CLoop ECtrlP 80 24; CLoop (ECtrlSpace 0 0 0 0) 100 40] in
  c_end s = None /\ seen (c_windows s) 80 5 VPacket /\ seen (c_windows s) 10 5 VMsg /\ seen (c_windows s) 99 39 VErr.
Proof. exact c106_seen_ex. Qed.

(** C107: From the command line, Ctrl-Space takes the cursor round the windows: messages, errors, command line,
    and with the packet window on, between the messages and the errors, also the packets. *)
Theorem C107_round : forall prompt ls ls',
  c_end (crun prompt cstart (ls ++ ls')) = None -> size ls <> None ->
  c_current (crun prompt cstart ls) = Some VCmd -> strokes is_ctrl_p ls' = 0%nat ->
  c_current (crun prompt cstart (ls ++ ls')) =
  nth_error (round (packets_on ls)) (strokes is_ctrl_space ls' mod List.length (round (packets_on ls))).
Proof. exact c107_round. Qed.
Print Assumptions C107_round.
Example C107_round_ex :
  let go := fun k => c_current (crun "saratoga" cstart ([CLoop EResize 80 24; CLoop ECtrlP 80 24] ++ repeat (CLoop (ECtrlSpace 0 0 0 0) 80 24) k)) in
  go 0%nat = Some VCmd /\ go 1%nat = Some VMsg /\ go 2%nat = Some VPacket /\ go 3%nat = Some VErr /\ go 4%nat = Some VCmd.
Proof. exact c107_round_ex. Qed.

(** C107: The cursor is on the command line when the screen has first been drawn, and whatever else happens, four presses
    of Ctrl-Space bring it there at some point. *)
Theorem C107_back : forall prompt ls,
  c_end (crun prompt cstart ls) = None ->
  (forall cols rows, sizes ls = [(cols, rows)] -> c_current (crun prompt cstart ls) = Some VCmd) /\
  (forall ls', size ls <> None -> c_end (crun prompt cstart (ls ++ ls')) = None -> (4 <= strokes is_ctrl_space ls')%nat ->
     exists part rest, ls' = (part ++ rest)%list /\ c_current (crun prompt cstart (ls ++ part)) = Some VCmd).
Proof. exact c107_back. Qed.
Print Assumptions C107_back.

(** C107: Turning the packet window off while the cursor is in it leaves the cursor there, in a window that is nowhere seen. *)
Theorem C107_lost : forall prompt ls cols rows,
  c_current (crun prompt cstart ls) = Some VPacket -> packets_on ls = true ->
  let ls' := (ls ++ [CLoop ECtrlP cols rows])%list in
  c_end (crun prompt cstart ls') = None ->
  c_current (crun prompt cstart ls') = Some VPacket /\ forall x y, ~ seen (c_windows (crun prompt cstart ls')) x y VPacket.
Proof. exact c107_lost. Qed.
Print Assumptions C107_lost.
Example C107_lost_ex :
  let ls := [CLoop EResize 80 24; CLoop ECtrlP 80 24; CLoop (ECtrlSpace 0 0 0 0) 80 24; CLoop (ECtrlSpace 0 0 0 0) 80 24] in
  c_current (crun "saratoga" cstart ls) = Some VPacket /\ packets_on ls = true /\ c_end (crun "saratoga" cstart (ls ++ [CLoop ECtrlP 80 24])) = None.
Proof. exact c107_lost_ex. Qed.

(** C108: Each text that the program prints for a window is written into it whole and once, or is still on its
    way there; nothing else is written into a window. *)
Theorem C108_once : forall prompt ls v,
  let s := crun prompt cstart ls in
  c_end s = None -> Permutation (for_window v (said prompt false ls)) (c_text s v ++ for_window v (c_waiting s)).
Proof. exact c108_once. Qed.
Print Assumptions C108_once.
Example C108_once_ex :
  let s := crun "saratoga" cstart [CPrint VMsg true "" "one"; CLoop EResize 80 24; CPrint VErr true "" "two"; CLoop (EText 0) 80 24] in
  c_text s VMsg = [painted true "" "one"] /\ for_window VErr (c_waiting s) = [painted true "" "two"] /\ c_text s VErr = [].
Proof. exact c108_once_ex. Qed.

(** C108: The order in which texts appear in a window is not that in which they were printed: any texts printed
    one after the other can appear in any order. *)
Theorem C108_any_order : forall prompt cols rows v texts texts', 12 <= cols -> 12 <= rows -> Permutation texts texts' ->
  exists ls,
    flat_map (fun l => match l with CPrint w line colour text => [(w, line, colour, text)] | _ => [] end) ls = map (fun '(line, colour, text) => (v, line, colour, text)) texts /\
    c_end (crun prompt cstart ls) = None /\
    c_text (crun prompt cstart ls) v = map (fun '(line, colour, text) => painted line colour text) texts'.
Proof. exact c108_any_order. Qed.
Print Assumptions C108_any_order.
Example C108_any_order_ex :
  exists ls, c_text (crun "saratoga" cstart ([CPrint VMsg true "" "one"; CPrint VMsg true "" "two"] ++ ls)) VMsg = [painted true "" "two"; painted true "" "one"].
Proof. exact c108_any_order_ex. Qed.

(** C109: A colour the program knows is set by its escape sequence, any other colour is white on red; the text
    follows unchanged, and the colour is turned off after it, unless none was asked for. *)
Theorem C109_colours : forall line colour text,
  exists before, painted line colour text = before ++ text ++ (if (colour =? "")%string then "" else escape "0") ++ (if line then newline else "") /\
    (forall codes, paints colour codes -> before = codes) /\
    ((forall codes, ~ paints colour codes) -> before = escape "37;1;41;4").
Proof. exact c109_colours. Qed.
Print Assumptions C109_colours.
Example C109_colours_ex :
  painted false "cyan_black" "x" = escape "36;1;40;1" ++ "x" ++ escape "0" /\
  painted false "ured" "x" = escape "31;4;40;1" ++ "x" ++ escape "0" /\
  painted false "Doing" "x" = escape "37;1;41;4" ++ "x" ++ escape "0".
Proof. exact c109_colours_ex. Qed.
