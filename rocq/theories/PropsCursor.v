(** * Cursor: the properties

    Statements only; the proofs are in CursorMain.v. *)
From Verif Require Import GoBase GoFacts Flags Sarnet Table Screen Words SpecWords WordsFacts TextFacts Cli SpecCli CliFacts CliFacts2 CliMain Cursor SpecCursor CursorMain.
From Coq Require Import ZArith.
Local Open Scope string_scope.
Local Open Scope Z_scope.

(** C119: the Down key: nothing on the last line, else the cursor goes one line down; never an error. *)
Theorem C119_down : forall c v, sane v ->
  let v' := vhandle c v KDown in
  sane v' /\ v_lines v' = v_lines v /\ v_cx v' = v_cx v /\ snd (cursor_down v) = true /\
  row v' = (if row v =? Z.of_nat (List.length (v_lines v)) - 1 then row v else row v + 1).
Proof. exact c119_down. Qed.
Print Assumptions C119_down.

(** C119: the Up key: nothing on the first line, else the cursor goes one line up; never an error. *)
Theorem C119_up : forall c v, sane v ->
  let v' := vhandle c v KUp in
  sane v' /\ v_lines v' = v_lines v /\ v_cx v' = v_cx v /\ snd (cursor_up v) = true /\ row v' = Z.max 0 (row v - 1).
Proof. exact c119_up. Qed.
Print Assumptions C119_up.

(** C119: with the drawing that follows: pressed [k] times on a line of the text, Down leads [k] lines
    down but not past the last line, and Up leads [k] lines up but not above the
    first line, or in a window that follows its text, the first line shown; the text and the column stay. *)
Theorem C119_walk : forall c k v, sane v -> drawn v -> first_shown v <= row v < Z.of_nat (List.length (v_lines v)) ->
  let d := vrun c v (repeat KDown k) in let u := vrun c v (repeat KUp k) in
  sane d /\ v_lines d = v_lines v /\ v_cx d = v_cx v /\ row d = Z.min (row v + Z.of_nat k) (Z.of_nat (List.length (v_lines v)) - 1) /\
  sane u /\ v_lines u = v_lines v /\ v_cx u = v_cx v /\ row u = Z.max (row v - Z.of_nat k) (first_shown v).
Proof. exact c119_walk. Qed.
Print Assumptions C119_walk.

(** C119 (defect): outside of the text, as in an empty window, nothing stops the Down key. *)
Theorem C119_beyond : forall c k v, sane v -> drawn v -> Z.of_nat (List.length (v_lines v)) <= row v ->
  let d := vrun c v (repeat KDown k) in
  sane d /\ v_lines d = v_lines v /\ v_cx d = v_cx v /\ row d = row v + Z.of_nat k /\
  v_oy d = Z.max (v_oy v) (row v + Z.of_nat k - (v_sy v - 1)).
Proof. exact c119_beyond. Qed.
Print Assumptions C119_beyond.

(** C119: Left pressed [k] times in the command window goes [k] columns to the left, but not into the
    prompt; nothing else changes. *)
Theorem C119_left : forall c k v, sane v -> drawn v -> v_name v = VCmd -> 0 <= prompt_len c ->
  vrun c v (repeat KLeft k) = v_at v (if v_cx v <=? prompt_len c then v_cx v else Z.max (prompt_len c) (v_cx v - Z.of_nat k)) (v_cy v).
Proof. exact c119_left. Qed.
Print Assumptions C119_left.

(** C119: Right pressed [k] times goes [k] columns to the right, but not behind the end of the line;
    from behind the end it goes to the end. *)
Theorem C119_right : forall c k v, sane v -> drawn v -> v_name v = VCmd -> Z.of_nat (slen (line_at v)) < v_sx v ->
  vrun c v (repeat KRight k) =
  v_at v (match k with O => v_cx v | _ => Z.min (v_cx v + Z.of_nat k) (Z.of_nat (slen (line_at v))) end) (v_cy v).
Proof. exact c119_right. Qed.
Print Assumptions C119_right.

(** C119: in the other windows Left and Right do nothing. *)
Theorem C119_others : forall c v, v_name v <> VCmd -> vhandle c v KLeft = v /\ vhandle c v KRight = v /\ back_space c v = v.
Proof. exact c119_others. Qed.
Print Assumptions C119_others.

(** C119: the prompt takes exactly the columns that Left and Backspace leave alone, if and only if
    the padding is configured as 3. *)
Theorem C119_prompt : forall c, prompt_len c = Z.of_nat (slen (prompt_text (ci_prompt c) (ci_curline c))) <-> ci_ppad c = 3.
Proof. exact c119_prompt. Qed.
Print Assumptions C119_prompt.

(** C119: Backspace takes away the character before the cursor and moves the cursor there, unless
    that belongs to the prompt; then it does nothing. *)
Theorem C119_back : forall c v a ch b, sane v -> v_name v = VCmd -> 0 <= prompt_len c ->
  line_at v = a ++ String ch b -> Z.of_nat (slen a) = v_cx v - 1 ->
  back_space c v =
  if v_cx v <=? prompt_len c then v
  else v_at (v_put v (firstn (Z.to_nat (row v)) (v_lines v) ++ [(a ++ b)%string] ++ skipn (S (Z.to_nat (row v))) (v_lines v))%list) (v_cx v - 1) (v_cy v).
Proof. exact c119_back. Qed.
Print Assumptions C119_back.

(** C119: a character typed on another takes its place; typed behind the line it is added; the
    other characters and lines stay, and the cursor moves on, unless it is in the last column. *)
Theorem C119_type : forall v before a b after c, sane v -> row v = Z.of_nat (List.length before) -> v_cx v = Z.of_nat (slen a) ->
  v_lines v = (before ++ (a ++ b)%string :: after)%list ->
  type_char v c =
  let v' := v_put v (before ++ (a ++ String c (match b with String _ r => r | "" => "" end))%string :: after)%list in
  if v_cx v + 1 =? v_sx v then v' else v_at v' (v_cx v + 1) (v_cy v).
Proof. exact c119_type. Qed.
Print Assumptions C119_type.

(** C119: whatever keys are pressed and whatever is printed or cleared, the cursor stays inside its window. *)
Theorem C119_inside : forall c n sx sy es, 0 < sx -> 0 < sy ->
  let v := vrun c (vstart n sx sy) es in 0 <= v_cx v < sx /\ 0 <= v_cy v < sy /\ 0 <= v_oy v.
Proof. exact c119_inside. Qed.
Print Assumptions C119_inside.

(** C120: in the command, message and error windows, when there are more lines than fit, the last ones
    are shown, whatever has happened before. *)
Theorem C120_follow : forall c n sx sy es, 0 < sx -> 0 < sy -> n <> VPacket ->
  let v := vrun c (vstart n sx sy) es in
  sy < Z.of_nat (List.length (v_lines v)) -> visible v = last_ones (Z.to_nat sy) (v_lines v).
Proof. exact c120_follow. Qed.
Print Assumptions C120_follow.

(** C120 (defect): clearing a window does not scroll it back.  After it, lines printed in a window that
    follows its text are not shown from the first on but from the one whose number is
    that of the first line shown before, until they are more than fit. *)
Theorem C120_clear : forall c n sx sy es ts, 0 < sx -> 0 < sy -> n = VMsg \/ n = VErr ->
  ts <> [] -> (forall t, In t ts -> one_line t /\ t <> "") ->
  let v := vrun c (vstart n sx sy) es in
  let w := vrun c (vrun c v [KClear]) (map print_line ts) in
  sy < Z.of_nat (List.length (v_lines v)) ->
  v_lines (vrun c v [KClear]) = [] /\ v_lines w = (ts ++ [""])%list /\
  visible w = if Z.of_nat (List.length ts) + 1 <=? sy
              then skipn (List.length (v_lines v) - Z.to_nat sy) (ts ++ [""])
              else last_ones (Z.to_nat sy) (ts ++ [""]).
Proof. exact c120_clear. Qed.
Print Assumptions C120_clear.

(** C120 (defect): in an empty window Down goes on, and the lines printed afterwards are not shown from
    the first on. *)
Theorem C120_down : forall c n sx sy k ts, 0 < sx -> 0 < sy -> n <> VPacket -> ts <> [] -> (forall t, In t ts -> one_line t /\ t <> "") ->
  Z.of_nat (List.length ts) + 1 <= sy ->
  visible (vrun c (vrun c (vstart n sx sy) (repeat KDown k)) (map print_line ts)) = skipn (k + 1 - Z.to_nat sy) (ts ++ [""]).
Proof. exact c120_down. Qed.
Print Assumptions C120_down.

(** C120: without that key and without clearing, a window that follows its text always shows its last
    lines, all of them while they fit. *)
Theorem C120_all : forall c n sx sy es, 0 < sx -> 0 < sy -> n <> VPacket -> ~ In KDown es -> ~ In KClear es ->
  let v := vrun c (vstart n sx sy) es in visible v = last_ones (Z.to_nat sy) (v_lines v).
Proof. exact c120_all. Qed.
Print Assumptions C120_all.

(** C120 (defect): the packet window does not follow its text: once it is full, what is printed
    does not change what is shown. *)
Theorem C120_still : forall c v t, v_name v = VPacket -> 0 <= v_oy v -> 0 < v_sy v -> v_oy v + v_sy v < Z.of_nat (List.length (v_lines v)) ->
  visible (vstep c v (KPrint t)) = visible v.
Proof. exact c120_still. Qed.
Print Assumptions C120_still.

(** C120: coming to a window with Ctrl-Space leaves the cursor on the last line, if it is there.  Otherwise it
    goes to the row that the last line has if the window is not scrolled; or, if the lines do not fit,
    to the last line, in the packet window to the last but one. *)
Theorem C120_jump : forall c v, sane v -> drawn v ->
  let v' := vstep c v KLastRow in let n := Z.of_nat (List.length (v_lines v)) in
  v_lines v' = v_lines v /\ v_cx v' = v_cx v /\
  if row v =? n - 1 then v' = v
  else if n =? 0 then v_oy v' = v_oy v /\ v_cy v' = v_sy v - 1
  else if n <=? v_sy v then v_oy v' = v_oy v /\ v_cy v' = n - 1
  else v_cy v' = v_sy v - 1 /\ row v' = if autoscroll (v_name v) then n - 1 else n - 2.
Proof. exact c120_jump. Qed.
Print Assumptions C120_jump.

(** C121: if each prompt is waited for, every command typed is run, once and in order, the window holds
    the commands behind numbered prompts, and its last lines are shown with the cursor
    behind the last prompt. *)
Theorem C121_session : forall p sx sy cs, 0 < sx -> 0 < sy -> fits p sx cs -> (forall c, In c cs -> runs c) ->
  exists k, krun (kstart p 3 sx sy) (KArrive :: flat_map do_one cs) = Ret k /\ ready p sx sy cs k /\ k_ran k = started cs.
Proof. exact c121_session. Qed.
Print Assumptions C121_session.

(** C122 (defect): Enter pressed twice before the next prompt has arrived ends the program in a panic, or, once
    the window is full, runs the command twice for one prompt. *)
Theorem C122_twice : forall p sx sy cs c k, 0 < sy -> fits p sx (cs ++ [c]) -> runs c -> ready p sx sy cs k ->
  let n := Z.of_nat (List.length cs) in
  if n + 1 <? sy then krun k [KText c; KEnter; KEnter] = Panic
  else exists k', krun k [KText c; KEnter; KEnter] = Ret k' /\ k_ran k' = (k_ran k ++ started [c; c])%list /\
       ci_commands (k_info k') = (cs ++ [c; c])%list /\ ci_curline (k_info k') = N.of_nat (S (List.length cs)) /\
       k_waiting k' = [(newline ++ prompt_text p (N.of_nat (S (List.length cs))))%string].
Proof. exact c122_twice. Qed.
Print Assumptions C122_twice.

(** C122 (defect): what is typed before the prompt has arrived is not a command: Enter then ends the program in a
    panic, or, once the window is full, does nothing. *)
Theorem C122_ahead : forall p sx sy cs c d k, 0 < sy -> fits p sx (cs ++ [c]) -> runs c -> d <> "" -> ~ In ":"%char (bytes_of d) -> ready p sx sy cs k ->
  if Z.of_nat (List.length cs) + 2 <? sy then krun k [KText c; KEnter; KText d; KArrive; KEnter] = Panic
  else exists k', krun k [KText c; KEnter; KText d; KArrive; KEnter] = Ret k' /\ k_ran k' = (k_ran k ++ started [c])%list /\
       line_at (k_view k') = prompt_text p (N.of_nat (S (List.length cs))).
Proof. exact c122_ahead. Qed.
Print Assumptions C122_ahead.

(** C122 (defect): with the cursor moved up to an earlier line, every Enter runs that command again, and no new prompt
    follows. *)
Theorem C122_again : forall p sx sy cs c k j m, 0 < sy -> fits p sx cs -> ready p sx sy cs k ->
  (1 <= j <= List.length cs)%nat -> Z.of_nat j < sy -> nth_error cs (List.length cs - j) = Some c -> runs c ->
  exists k', krun k (repeat (KKey KUp) j ++ repeat KEnter m) = Ret k' /\ k_ran k' = (k_ran k ++ started (repeat c m))%list /\
    v_lines (k_view k') = v_lines (k_view k) /\ k_waiting k' = [] /\
    ci_curline (k_info k') = ci_curline (k_info k) /\ ci_commands (k_info k') = (cs ++ repeat c m)%list.
Proof. exact c122_again. Qed.
Print Assumptions C122_again.
Example C119_down_ex : sane ex_view /\ row ex_view = 4 /\ row (vhandle ex_ci ex_view KDown) = 5 /\ row (vhandle ex_ci (vhandle ex_ci ex_view KDown) KDown) = 5.
Proof. exact c119_down_ex. Qed.
Example C119_up_ex : sane ex_view /\ row (vhandle ex_ci ex_view KUp) = 3.
Proof. exact c119_up_ex. Qed.
Example C119_walk_ex : sane ex_view /\ drawn ex_view /\ first_shown ex_view = 3 /\ row ex_view = 4 /\ row (vrun ex_ci ex_view (repeat KUp 4)) = 3.
Proof. exact c119_walk_ex. Qed.
Example C119_beyond_ex : sane (vstart VErr 20 3) /\ drawn (vstart VErr 20 3) /\ row (vrun ex_ci (vstart VErr 20 3) (repeat KDown 7)) = 7 /\
  v_oy (vrun ex_ci (vstart VErr 20 3) (repeat KDown 7)) = 5.
Proof. exact c119_beyond_ex. Qed.
Example C119_left_ex : sane ex_cmdview /\ drawn ex_cmdview /\ prompt_len ex_ci = 12 /\ v_cx (vrun ex_ci ex_cmdview (repeat KLeft 9)) = 12.
Proof. exact c119_left_ex. Qed.
Example C119_right_ex : sane ex_cmdview /\ drawn ex_cmdview /\ slen (line_at ex_cmdview) = 17%nat /\ v_cx (vrun ex_ci ex_cmdview (repeat KRight 9)) = 17.
Proof. exact c119_right_ex. Qed.
Example C119_others_ex : v_name ex_view <> VCmd /\ vhandle ex_ci ex_view KLeft = ex_view.
Proof. exact c119_others_ex. Qed.
Example C119_prompt_ex : prompt_len ex_ci = 12 /\ prompt_text "saratoga" 2 = "saratoga[2]:".
Proof. exact c119_prompt_ex. Qed.
Example C119_type_ex : sane ex_cmdview /\ row ex_cmdview = Z.of_nat (List.length ["saratoga[0]:ls"; "saratoga[1]:ls"]) /\
  v_cx ex_cmdview = Z.of_nat (slen "saratoga[2]:pe") /\ v_lines ex_cmdview = (["saratoga[0]:ls"; "saratoga[1]:ls"] ++ ("saratoga[2]:pe" ++ "ers")%string :: [])%list /\
  nth 2 (v_lines (type_char ex_cmdview "n")) "" = "saratoga[2]:penrs".
Proof. exact c119_type_ex. Qed.
Example C119_back_ex : line_at ex_cmdview = "saratoga[2]:p" ++ String "e" "ers" /\
  v_lines (back_space ex_ci ex_cmdview) = ["saratoga[0]:ls"; "saratoga[1]:ls"; "saratoga[2]:pers"] /\ v_cx (back_space ex_ci ex_cmdview) = 13.
Proof. exact c119_back_ex. Qed.
Example C119_inside_ex : v_cy (vrun ex_ci (vstart VErr 20 3) (repeat KDown 7)) = 2 /\ v_oy (vrun ex_ci (vstart VErr 20 3) (repeat KDown 7)) = 5.
Proof. exact c119_inside_ex. Qed.
Example C120_follow_ex : List.length (v_lines ex_view) = 6%nat /\ visible ex_view = ["d"; "e"; ""].
Proof. exact c120_follow_ex. Qed.
Example C120_clear_ex : let v := vrun ex_ci (vstart VErr 20 3) ex_lines in
  3 < Z.of_nat (List.length (v_lines v)) /\ one_line "new" /\
  visible (vrun ex_ci (vrun ex_ci v [KClear]) (map print_line ["new"; "text"])) = [] /\
  visible (vrun ex_ci (vrun ex_ci v [KClear]) (map print_line ["new"; "text"; "more"])) = ["text"; "more"; ""].
Proof. exact c120_clear_ex. Qed.
Example C120_down_ex : visible (vrun ex_ci (vrun ex_ci (vstart VMsg 20 3) (repeat KDown 3)) (map print_line ["new"; "text"])) = ["text"; ""].
Proof. exact c120_down_ex. Qed.
Example C120_all_ex : visible (vrun ex_ci (vstart VMsg 20 3) [print_line "a"; KUp; KLastRow; print_line "b"]) = ["a"; "b"; ""].
Proof. exact c120_all_ex. Qed.
Example C120_still_ex : let v := vrun ex_ci (vstart VPacket 20 3) ex_lines in
  v_oy v + v_sy v < Z.of_nat (List.length (v_lines v)) /\ visible v = ["a"; "b"; "c"] /\ visible (vstep ex_ci v (print_line "f")) = ["a"; "b"; "c"].
Proof. exact c120_still_ex. Qed.
Example C120_jump_ex : let v := vrun ex_ci (vstart VMsg 20 3) ex_lines in let w := vrun ex_ci (vstart VPacket 20 3) ex_lines in
  sane v /\ drawn v /\ row v = 3 /\ row (vstep ex_ci v KLastRow) = 5 /\
  row (vstep ex_ci (vrun ex_ci (vstart VMsg 20 3) [print_line "a"]) KLastRow) = 1 /\
  sane w /\ drawn w /\ row w = 0 /\ row (vstep ex_ci w KLastRow) = 4.
Proof. exact c120_jump_ex. Qed.
Example C121_session_ex : fits "saratoga" 40 ex_typed /\ (forall c, In c ex_typed -> runs c) /\
  started ex_typed = [["ls"]; ["peers"]; ["beacon"; "10"]] /\
  transcript "saratoga" ex_typed = ["saratoga[0]:ls"; "saratoga[1]:peers"; "saratoga[2]:beacon 10"; "saratoga[3]:"].
Proof. exact c121_session_ex. Qed.
Example C122_twice_ex : ready "saratoga" 40 10 ex_typed (ex_ready 10) /\ fits "saratoga" 40 (ex_typed ++ ["ls"]) /\
  krun (ex_ready 10) [KText "ls"; KEnter; KEnter] = Panic /\
  match krun (ex_ready 3) [KText "ls"; KEnter; KEnter] with Ret k => k_ran k | _ => [] end = [["ls"]; ["peers"]; ["beacon"; "10"]; ["ls"]; ["ls"]].
Proof. exact c122_twice_ex. Qed.
Example C122_ahead_ex : krun (ex_ready 10) [KText "ls"; KEnter; KText "peers"; KArrive; KEnter] = Panic /\
  match krun (ex_ready 4) [KText "ls"; KEnter; KText "peers"; KArrive; KEnter] with Ret k => k_ran k | _ => [] end = [["ls"]; ["peers"]; ["beacon"; "10"]; ["ls"]].
Proof. exact c122_ahead_ex. Qed.
Example C122_again_ex : ready "saratoga" 40 10 ex_typed (ex_ready 10) /\ nth_error ex_typed (3 - 2) = Some "peers" /\
  match krun (ex_ready 10) (repeat (KKey KUp) 2 ++ repeat KEnter 3) with Ret k => k_ran k | _ => [] end =
    [["ls"]; ["peers"]; ["beacon"; "10"]; ["peers"]; ["peers"]; ["peers"]].
Proof. exact c122_again_ex. Qed.
