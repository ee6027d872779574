(** * Model of what happens inside a window: the cursor, scrolling, the prompt

    The functions of github.com/jroimartin/gocui that the code calls are modelled from their
    documentation, for lines that are shorter than the window is wide: then every line takes
    one row of the window.  What gocui does with longer lines (it wraps them) is not modelled. *)

From Coq Require Import ZArith List String Ascii Bool NArith.
From Verif Require Import GoBase Sarnet Table Screen Words Cli.
Import ListNotations.
Local Open Scope string_scope.
Local Open Scope Z_scope.

(** A window: the line and column shown at its upper left corner, the cursor relative to
    that corner, its size, the lines written to it (the *gocui.View of sarwin/sarwin.go:304-543) *)
Record view := { v_name : vname; v_ox : Z; v_oy : Z; v_cx : Z; v_cy : Z; v_sx : Z; v_sy : Z; v_lines : list string }.
(** Assignments to a gocui View, as sarwin/sarwin.go:304-508 makes them; this one to the cursor *)
Definition v_at (v : view) (x y : Z) : view :=
  {| v_name := v_name v; v_ox := v_ox v; v_oy := v_oy v; v_cx := x; v_cy := y; v_sx := v_sx v; v_sy := v_sy v; v_lines := v_lines v |}.
(** ... to the origin (sarwin/sarwin.go:365-381, 467-508) *)
Definition v_from (v : view) (x y : Z) : view :=
  {| v_name := v_name v; v_ox := x; v_oy := y; v_cx := v_cx v; v_cy := v_cy v; v_sx := v_sx v; v_sy := v_sy v; v_lines := v_lines v |}.
(** ... to the lines (sarwin/sarwin.go:106-119, 304-347) *)
Definition v_put (v : view) (ls : list string) : view :=
  {| v_name := v_name v; v_ox := v_ox v; v_oy := v_oy v; v_cx := v_cx v; v_cy := v_cy v; v_sx := v_sx v; v_sy := v_sy v; v_lines := ls |}.

(** gocui SetCursor: an error, and no change, outside of the window (called in sarwin/sarwin.go:365-543) *)
Definition set_cursor (v : view) (x y : Z) : option view :=
  if (x <? 0) || (v_sx v <=? x) || (y <? 0) || (v_sy v <=? y) then None else Some (v_at v x y).
(** a call of SetCursor whose error is ignored (sarwin/sarwin.go:365-381 gotolastrow, 519-543 prompt) *)
Definition try_cursor (v : view) (x y : Z) : view := match set_cursor v x y with Some v' => v' | None => v end.
(** gocui SetOrigin: an error, and no change, for negative positions (called in sarwin/sarwin.go:365-508) *)
Definition set_origin (v : view) (x y : Z) : option view := if (x <? 0) || (y <? 0) then None else Some (v_from v x y).
(** A call of SetOrigin whose error is ignored (sarwin/sarwin.go:365-381 gotolastrow) *)
Definition try_origin (v : view) (x y : Z) : view := match set_origin v x y with Some v' => v' | None => v end.
(** gocui BufferLines: how many (called in sarwin/sarwin.go:365-381, 467-489) *)
Definition blines (v : view) : Z := Z.of_nat (List.length (v_lines v)).
(** gocui Line, for the row of the cursor: "" (and an error that nobody looks at) if there is none
    (called in sarwin/sarwin.go:446-464, 575-607) *)
Definition line_at (v : view) : string := nth (Z.to_nat (v_oy v + v_cy v)) (v_lines v) "".
(** gocui Write: a line end starts a new line, all else goes to the end of the last line
    (called by fmt in sarwin/sarwin.go:304-347) *)
Definition add_char (ls : list string) (c : ascii) : list string :=
  match rev ls with
  | [] => [String c ""]
  | l :: r => (rev r ++ [(l ++ String c "")%string])%list
  end.
(** Gocui Write of a text (sarwin/sarwin.go:304-347 fprintf, fprintln), character by character *)
Fixpoint write (ls : list string) (t : string) : list string :=
  match t with
  | "" => ls
  | String c r => write (if Ascii.eqb c (ascii_of_N 10) then (ls ++ [""])%list else add_char ls c) r
  end.
(** sarwin.go:189, 203, 218, 233: Autoscroll, for each window *)
Definition autoscroll (n : vname) : bool := match n with VPacket => false | _ => true end.
(** gocui draw, the part that moves what is shown (after every event of sarwin/sarwin.go:610-645) *)
Definition draw (v : view) : view :=
  if autoscroll (v_name v) && (v_sy v <? blines v) then v_from v (v_ox v) (blines v - v_sy v) else v.
(** What the user sees of the lines (the columns aside) (no code of its own; sarwin/sarwin.go:179-253) *)
Definition visible (v : view) : list string := firstn (Z.to_nat (v_sy v)) (skipn (Z.to_nat (v_oy v)) (v_lines v)).

(** sarwin.go:97-103 Cmdinfo.  Numlines is never used. *)
Record cinfo := { ci_prompt : string; ci_curline : N; ci_ppad : Z; ci_commands : list string }.
(** sarwin.go:511-513 promptlen *)
Definition prompt_len (c : cinfo) : Z :=
  Z.of_nat (slen (ci_prompt c)) + Z.of_nat (slen (itoa (ci_curline c))) + ci_ppad c.

(** sarwin.go:467-489 CursorDown; false for an error *)
Definition cursor_down (v : view) : view * bool :=
  if v_oy v + v_cy v =? blines v - 1 then (v, true)
  else match set_cursor v (v_cx v) (v_cy v + 1) with
       | Some v' => (v', true)
       | None =>
           match set_origin v (v_ox v) (v_oy v + 1) with
           | Some v' => (v', true)
           | None => (v, false)
           end
       end.
(** sarwin.go:492-508 CursorUp *)
Definition cursor_up (v : view) : view * bool :=
  match set_cursor v (v_cx v) (v_cy v - 1) with
  | Some v' => (v', true)
  | None =>
      if 0 <? v_oy v then
        match set_origin v (v_ox v) (v_oy v - 1) with
        | Some v' => (v', true)
        | None => (v, false)
        end
      else (v, true)
  end.
(** sarwin.go:427-443 CursorLeft *)
Definition cursor_left (c : cinfo) (v : view) : view :=
  match v_name v with
  | VCmd => if v_cx v <=? prompt_len c then v else try_cursor v (v_cx v - 1) (v_cy v)
  | _ => v
  end.
(** sarwin.go:446-464 CursorRight *)
Definition cursor_right (v : view) : view :=
  match v_name v with
  | VCmd =>
      let n := Z.of_nat (slen (line_at v)) in
      if n - 1 <=? v_cx v then try_cursor v n (v_cy v) else try_cursor v (v_cx v + 1) (v_cy v)
  | _ => v
  end.
(** sarwin.go:365-381 gotolastrow; what it prints is in Screen.v *)
Definition goto_last_row (v : view) : view :=
  if v_oy v + v_cy v =? blines v - 1 then v
  else match set_cursor v (v_cx v) (blines v - 1) with
       | Some v' => v'
       | None => let v := try_origin v (v_ox v) (blines v - v_sy v - 1) in try_cursor v (v_cx v) (v_sy v - 1)
       end.
(** sarwin.go:106-119 Clearwin: gocui Clear drops the lines.  Not for the command window. *)
Definition clear_win (v : view) : view :=
  match v_name v with VCmd => v | _ => try_cursor (v_put v []) 0 0 end.

(** What can happen to a window, each followed by a drawing
    (sarwin/sarwin.go:610-645 Keybindings, 304-347 fprintf and fprintln, 106-119 Clearwin) *)
Inductive vevent := KUp | KDown | KLeft | KRight | KLastRow | KClear | KPrint (t : string).
(** sarwin/sarwin.go:411-508 (the keys), 304-347 (printing), 106-119 (Clearwin) *)
Definition vhandle (c : cinfo) (v : view) (e : vevent) : view :=
  match e with
  | KUp => fst (cursor_up v)
  | KDown => fst (cursor_down v)
  | KLeft => cursor_left c v
  | KRight => cursor_right v
  | KLastRow => goto_last_row v
  | KClear => clear_win v
  | KPrint t => v_put v (write (v_lines v) t)
  end.
(** One event of sarwin/sarwin.go:610-645, and gocui's drawing after it *)
Definition vstep (c : cinfo) (v : view) (e : vevent) : view := draw (vhandle c v e).
(** No code of its own: several events of sarwin/sarwin.go:610-645 one after the other *)
Definition vrun (c : cinfo) (v : view) (es : list vevent) : view := fold_left (vstep c) es v.
(** A new window, sarwin.go:179-234 *)
Definition vstart (n : vname) (sx sy : Z) : view :=
  {| v_name := n; v_ox := 0; v_oy := 0; v_cx := 0; v_cy := 0; v_sx := sx; v_sy := sy; v_lines := [] |}.

(** ** The command line *)

(** The command window, its Cinfo, the prompts that are on their way to it, and the words of
    the commands run so far (sarwin/sarwin.go:97-103 Cmdinfo, 122 Cinfo, 575-607 GetLine) *)
Record cmdline := { k_view : view; k_info : cinfo; k_waiting : list string; k_ran : list (list string) }.
(** the text of a prompt (sarwin/sarwin.go:519-543) *)
Definition prompt_text (p : string) (n : N) : string := p ++ "[" ++ itoa n ++ "]:".
(** Cinfo.Curline++ (sarwin/sarwin.go:519-543 prompt) *)
Definition next_line (c : cinfo) : cinfo :=
  {| ci_prompt := ci_prompt c; ci_curline := (ci_curline c + 1)%N; ci_ppad := ci_ppad c; ci_commands := ci_commands c |}.
(** Commands = append(Commands, ...) (sarwin/sarwin.go:575-607 GetLine) *)
Definition remember (c : cinfo) (cmd : string) : cinfo :=
  {| ci_prompt := ci_prompt c; ci_curline := ci_curline c; ci_ppad := ci_ppad c; ci_commands := (ci_commands c ++ [cmd])%list |}.
(** sarwin.go:519-543 prompt, when FirstPass is over.  The error of CursorDown is only printed. *)
Definition show_prompt (k : cmdline) : cmdline :=
  let v := k_view k in
  if v_oy v + v_cy v =? Z.of_N (ci_curline (k_info k)) then
    let c := next_line (k_info k) in
    let v := try_cursor v (prompt_len c) (v_cy v) in
    let v := fst (cursor_down v) in
    let v := try_cursor v (prompt_len c) (v_cy v + 1) in
    {| k_view := v; k_info := c; k_waiting := (k_waiting k ++ [(newline ++ prompt_text (ci_prompt c) (ci_curline c))%string])%list; k_ran := k_ran k |}
  else k.
(** sarwin.go:575-607 GetLine in the command window *)
Definition enter (k : cmdline) : outcome cmdline :=
  let line := line_at (k_view k) in
  do ' (g, _) <- get_line line;
  do text <- index (split_two ":" line) 1;
  if String.eqb text "" then Ret k
  else
    Ret (show_prompt {| k_view := k_view k; k_info := remember (k_info k) text; k_waiting := k_waiting k;
                        k_ran := match g with Some words => (k_ran k ++ [words])%list | None => k_ran k end |}).

(** gocui's editor: a character typed in overwrite mode goes to the place of the cursor, in
    a line that is made as long as necessary, and moves the cursor
    (sarwin/sarwin.go:179-234 makes the command window editable) *)
Definition zero_char : ascii := ascii_of_N 0.
(** Auxiliary to gocui's editor: so many zero characters (sarwin/sarwin.go:179-234 makes the command window
    editable) *)
Definition fill (n : nat) : string := string_of (repeat zero_char n).
(** Gocui writeRune in overwrite mode on one line (sarwin/sarwin.go:179-234 makes the command window editable) *)
Definition over (line : string) (x : nat) (c : ascii) : string :=
  let line := line ++ fill (x - slen line) in
  substring 0 x line ++ String c "" ++ substring (S x) (slen line - S x) line.
(** Gocui EditWrite (sarwin/sarwin.go:179-234 makes the command window editable) *)
Definition type_char (v : view) (c : ascii) : view :=
  let row := Z.to_nat (v_oy v + v_cy v) in
  let ls := (v_lines v ++ repeat "" (S row - List.length (v_lines v)))%list in
  let line := over (nth row ls "") (Z.to_nat (v_cx v)) c in
  try_cursor (v_put v (firstn row ls ++ [line] ++ skipn (S row) ls)%list) (v_cx v + 1) (v_cy v).
(** Several characters typed, one after the other (sarwin/sarwin.go:179-234, as above) *)
Fixpoint type_text (v : view) (t : string) : view :=
  match t with "" => v | String c r => type_text (type_char v c) r end.
(** gocui EditDelete(true), for a cursor within a line: the character before the cursor goes
    (called in sarwin/sarwin.go:411-424) *)
Definition delete_back (v : view) : view :=
  let row := Z.to_nat (v_oy v + v_cy v) in
  let x := Z.to_nat (v_cx v - 1) in
  let line := nth row (v_lines v) "" in
  let line := substring 0 x line ++ substring (S x) (slen line - S x) line in
  try_cursor (v_put v (firstn row (v_lines v) ++ [line] ++ skipn (S row) (v_lines v))%list) (v_cx v - 1) (v_cy v).
(** sarwin.go:411-424 BackSpace *)
Definition back_space (c : cinfo) (v : view) : view :=
  match v_name v with
  | VCmd => if v_cx v <=? prompt_len c then v else delete_back v
  | _ => v
  end.

(** What can happen at the command line: text typed, the keys, or a prompt that was on its
    way arrives; each is followed by a drawing (sarwin/sarwin.go:610-645, 519-543) *)
Inductive kevent := KText (t : string) | KEnter | KKey (e : vevent) | KBack | KArrive.
(** Auxiliary, no code of its own: an assignment to the window of sarwin/sarwin.go:575-607 *)
Definition with_view (k : cmdline) (v : view) : cmdline :=
  {| k_view := v; k_info := k_info k; k_waiting := k_waiting k; k_ran := k_ran k |}.
(** sarwin/sarwin.go:575-607 GetLine, 411-508 the keys, 135-137 CmdPrintf of a prompt that arrives *)
Definition khandle (k : cmdline) (e : kevent) : outcome cmdline :=
  match e with
  | KText t => Ret (with_view k (type_text (k_view k) t))
  | KEnter => enter k
  | KKey e => Ret (with_view k (vhandle (k_info k) (k_view k) e))
  | KBack => Ret (with_view k (back_space (k_info k) (k_view k)))
  | KArrive =>
      match k_waiting k with
      | [] => Ret k
      | t :: r => Ret {| k_view := v_put (k_view k) (write (v_lines (k_view k)) t); k_info := k_info k; k_waiting := r; k_ran := k_ran k |}
      end
  end.
(** One event (sarwin/sarwin.go:610-645), and gocui's drawing after it *)
Definition kstep (k : cmdline) (e : kevent) : outcome cmdline :=
  do k <- khandle k e; Ret (with_view k (draw (k_view k))).
(** No code of its own: several events of sarwin/sarwin.go:610-645 one after the other *)
Fixpoint krun (k : cmdline) (es : list kevent) : outcome cmdline :=
  match es with
  | [] => Ret k
  | e :: r => do k <- kstep k e; krun k r
  end.
(** sarwin.go:236-251 Layout the first time, with sarwin.go:527-531 in prompt: the first prompt
    is on its way, the cursor already behind it *)
Definition kstart (p : string) (ppad sx sy : Z) : cmdline :=
  let c := {| ci_prompt := p; ci_curline := 0; ci_ppad := ppad; ci_commands := [] |} in
  {| k_view := try_cursor (vstart VCmd sx sy) (prompt_len c) 0; k_info := c; k_waiting := [prompt_text p 0]; k_ran := [] |}.
