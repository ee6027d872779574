(** * Model of the screen: its windows, its colours, and how text gets into a window *)

From Coq Require Import ZArith List String Ascii Bool NArith.
From Verif Require Import GoBase Sarnet Table.
Import ListNotations.
Local Open Scope string_scope.
Local Open Scope Z_scope.

(** ** Colours *)

(** sarwin/sarwin.go:35-38 ansiprefix, ansipostfix, ansiseparator, ansioff *)
Definition esc : ascii := ascii_of_N 27.
(** sarwin/sarwin.go:35 *)
Definition ansi_prefix : string := String esc "[".
(** sarwin/sarwin.go:36 *)
Definition ansi_postfix : string := "m".
(** sarwin/sarwin.go:37 *)
Definition ansi_separator : string := ";".
(** sarwin/sarwin.go:38 *)
Definition ansi_off : string := String esc "[0m".
(** sarwin/sarwin.go:41-69 fg *)
Definition fg : list (string * string) :=
  [("black", "30;1"); ("red", "31;1"); ("green", "32;1"); ("yellow", "33;1");
   ("blue", "34;1"); ("magenta", "35;1"); ("cyan", "36;1"); ("white", "37;1");
   ("ublack", "30;4"); ("ured", "31;4"); ("ugreen", "32;4"); ("uyellow", "33;4");
   ("ublue", "34;4"); ("umagenta", "35;4"); ("ucyan", "36;4"); ("uwhite", "37;4");
   ("iblack", "30;7"); ("ired", "31;7"); ("igreen", "32;7"); ("iyellow", "33;7");
   ("iblue", "34;7"); ("imagenta", "35;7"); ("icyan", "36;7"); ("iwhite", "37;7")].
(** sarwin/sarwin.go:72-91 bg *)
Definition bg : list (string * string) :=
  [("black", "40;1"); ("red", "41;1"); ("green", "42;1"); ("yellow", "43;1");
   ("blue", "44;1"); ("magenta", "45;1"); ("cyan", "46;1"); ("white", "47;1");
   ("bblack", "40;4"); ("bred", "41;4"); ("bgreen", "42;4"); ("byellow", "43;4");
   ("bblue", "44;4"); ("bmagenta", "45;4"); ("bcyan", "46;4"); ("bwhite", "47;4")].
(** reading a Go map: "" for a key it does not have (sarwin/sarwin.go:276-301) *)
Definition at_key (m : list (string * string)) (k : string) : string :=
  match lookup k m with Some v => v | None => "" end.
(** sarwin/sarwin.go:256-263 fgexists, 266-273 bgexists *)
Definition fg_exists (c : string) : bool := match lookup c fg with Some _ => true | None => false end.
(** sarwin/sarwin.go:266-273 bgexists *)
Definition bg_exists (c : string) : bool := match lookup c bg with Some _ => true | None => false end.
(** sarwin/sarwin.go:276-301 setcolour *)
Definition set_colour (colour : string) : string :=
  if (colour =? "none")%string || (colour =? "")%string then ""
  else if (colour =? "off")%string then ansi_off
  else
    let scream := ansi_prefix ++ at_key fg "white" ++ ansi_separator ++ at_key bg "bred" ++ ansi_postfix in
    match split_on "_" colour with
    | [f; b] =>
        if fg_exists f && bg_exists b then ansi_prefix ++ at_key fg f ++ ansi_separator ++ at_key bg b ++ ansi_postfix
        else scream
    | [f] =>
        if fg_exists f then ansi_prefix ++ at_key fg f ++ ansi_separator ++ at_key bg "black" ++ ansi_postfix
        else scream
    | _ => scream
    end.
(** sarwin/sarwin.go:316-320 and 340-344: what fprintf and fprintln write into the window.  The text is
    what fmt.Sprintf or fmt.Sprint made of the arguments. *)
Definition painted (line : bool) (colour text : string) : string :=
  set_colour colour ++ text ++ (if (colour =? "")%string then "" else set_colour "off") ++ (if line then newline else "").

(** ** Windows *)

(** sarwin/sarwin.go:179-253: the windows by name *)
Inductive vname := VCmd | VErr | VPacket | VMsg.
(** Auxiliary, no code of its own: equality of the names of sarwin/sarwin.go:179-253 *)
Definition vname_eqb (v w : vname) : bool :=
  match v, w with VCmd, VCmd | VErr, VErr | VPacket, VPacket | VMsg, VMsg => true | _, _ => false end.
(** The corners of a window, both part of it (the arguments of SetView, sarwin/sarwin.go:179-253) *)
Record rect := { x0 : Z; y0 : Z; x1 : Z; y1 : Z }.
(** The windows in the order in which gocui draws them: a later one hides what it covers (sarwin/sarwin.go:167-253) *)
Definition windows := list (vname * rect).
(** gocui SetView: a window must be at least two cells wide and high; one that exists is
    resized and keeps its place in the order, a new one is put last (called in sarwin/sarwin.go:179-253) *)
Fixpoint put_view (v : vname) (r : rect) (ws : windows) : windows :=
  match ws with
  | [] => [(v, r)]
  | (w, q) :: t => if vname_eqb v w then (w, r) :: t else (w, q) :: put_view v r t
  end.
(** Gocui SetView (sarwin/sarwin.go:179-253) *)
Definition set_view (v : vname) (r : rect) (ws : windows) : option windows :=
  if (x0 r >=? x1 r) || (y0 r >=? y1 r) then None else Some (put_view v r ws).
(** gocui View: does the window exist (called in sarwin/sarwin.go:304-408) *)
Definition has_view (v : vname) (ws : windows) : bool := existsb (fun e => vname_eqb v (fst e)) ws.
(** gocui SetViewOnTop (called in sarwin/sarwin.go:350-362) *)
Definition to_top (v : vname) (ws : windows) : windows :=
  (filter (fun e => negb (vname_eqb v (fst e))) ws ++ filter (fun e => vname_eqb v (fst e)) ws)%list.
(** sarwin/sarwin.go:175-233, in Layout: the windows of a terminal with maxx columns and maxy rows, in
    the order in which they are set.  Go's division of integers rounds towards 0. *)
Definition ratio : Z := 4.
(** sarwin/sarwin.go:167-234: the windows that Layout sets, in order *)
Definition layout_views (maxx maxy : Z) : windows :=
  [(VCmd, {| x0 := 0; y0 := maxy - maxy ÷ ratio + 1; x1 := maxx ÷ 2 - 1; y1 := maxy - 1 |});
   (VErr, {| x0 := maxx ÷ 2; y0 := maxy - maxy ÷ ratio + 1; x1 := maxx - 1; y1 := maxy - 1 |});
   (VPacket, {| x0 := maxx - maxx ÷ 4; y0 := 1; x1 := maxx - 2; y1 := maxy - maxy ÷ ratio - 1 |});
   (VMsg, {| x0 := 0; y0 := 0; x1 := maxx - 1; y1 := maxy - maxy ÷ ratio |})].
(** Layout returns at the first window that cannot be set (sarwin/sarwin.go:167-253) *)
Fixpoint set_views (want ws : windows) : windows * bool :=
  match want with
  | [] => (ws, true)
  | (v, r) :: t => match set_view v r ws with Some ws' => set_views t ws' | None => (ws, false) end
  end.

(** ** The user interface *)

(** Why the program ended: the user pressed Ctrl-C; gocui refused the size of a window; gocui
    was asked for a window that does not exist; text was written to one that does not exist
    (sarwin/sarwin.go:551-553, saratoga/saratoga.go:736-740) *)
Inductive ending := Quit | InvalidDimensions | UnknownView | FatalView.
(** The state of the user interface: gocui's windows, FirstPass (sarwin/sarwin.go:165), showpacket (556), what is
    waiting in gocui's queue *)
Record screen := {
  c_windows : windows;
  c_current : option vname;          (* the window that has the cursor *)
  c_packets : bool;                  (* sarwin/sarwin.go:556 showpacket *)
  c_first : bool;                    (* sarwin/sarwin.go:165 FirstPass *)
  c_waiting : list (vname * string); (* the goroutines started by gocui's Update that have yet to hand over their text *)
  c_text : vname -> list string;     (* what has been written into each window, in order *)
  c_end : option ending }.
(** Assignments to the parts of [screen]; this one by SetView and DeleteView (sarwin/sarwin.go:167-253, 559-572) *)
Definition c_set_windows (s : screen) ws :=
  {| c_windows := ws; c_current := c_current s; c_packets := c_packets s; c_first := c_first s; c_waiting := c_waiting s; c_text := c_text s; c_end := c_end s |}.
(** ... by SetCurrentView (sarwin/sarwin.go:350-362) *)
Definition c_set_current (s : screen) v :=
  {| c_windows := c_windows s; c_current := Some v; c_packets := c_packets s; c_first := c_first s; c_waiting := c_waiting s; c_text := c_text s; c_end := c_end s |}.
(** ... to showpacket (sarwin/sarwin.go:556-572) *)
Definition c_set_packets (s : screen) b :=
  {| c_windows := c_windows s; c_current := c_current s; c_packets := b; c_first := c_first s; c_waiting := c_waiting s; c_text := c_text s; c_end := c_end s |}.
(** ... to FirstPass (sarwin/sarwin.go:165, 236-252) *)
Definition c_set_first (s : screen) b :=
  {| c_windows := c_windows s; c_current := c_current s; c_packets := c_packets s; c_first := b; c_waiting := c_waiting s; c_text := c_text s; c_end := c_end s |}.
(** ... to gocui's queue (g.Update, sarwin/sarwin.go:304-347) *)
Definition c_set_waiting (s : screen) w :=
  {| c_windows := c_windows s; c_current := c_current s; c_packets := c_packets s; c_first := c_first s; c_waiting := w; c_text := c_text s; c_end := c_end s |}.
(** ... to the texts of the windows (sarwin/sarwin.go:304-347) *)
Definition c_set_text (s : screen) t :=
  {| c_windows := c_windows s; c_current := c_current s; c_packets := c_packets s; c_first := c_first s; c_waiting := c_waiting s; c_text := t; c_end := c_end s |}.
(** ... the end of gocui's main loop (sarwin/sarwin.go:551-553, saratoga/saratoga.go:736-740) *)
Definition c_set_end (s : screen) e :=
  {| c_windows := c_windows s; c_current := c_current s; c_packets := c_packets s; c_first := c_first s; c_waiting := c_waiting s; c_text := c_text s; c_end := Some e |}.

(** sarwin/sarwin.go:124-162 MsgPrintf .. PacketPrintln, 304-348 fprintf and fprintln: gocui's Update
    starts a goroutine which hands the text over to the main loop *)
Definition print (s : screen) (v : vname) (line : bool) (colour text : string) : screen :=
  c_set_waiting s (c_waiting s ++ [(v, painted line colour text)])%list.
(** sarwin/sarwin.go:308-323, 331-347: the main loop runs what the goroutine handed over *)
Definition run_update (s : screen) (v : vname) (text : string) : screen :=
  if has_view v (c_windows s)
  then c_set_text s (fun w => if vname_eqb v w then (c_text s w ++ [text])%list else c_text s w)
  else c_set_end s FatalView.
(** Auxiliary, no code of its own: an element taken out of gocui's queue (g.Update, sarwin/sarwin.go:304-347, in any
    order) *)
Fixpoint drop_nth {A} (i : nat) (l : list A) : list A :=
  match l, i with
  | [], _ => []
  | _ :: t, O => t
  | a :: t, S i => a :: drop_nth i t
  end.

(** sarwin/sarwin.go:167-253 Layout: called by gocui whenever it draws the screen.
    Simplified: the titles, the colours and the modes of the windows, and the position of the
    cursor within one, are left out. *)
Definition layout (prompt : string) (s : screen) (maxx maxy : Z) : screen :=
  let '(ws, ok) := set_views (layout_views maxx maxy) (c_windows s) in
  let s := c_set_windows s ws in
  if negb ok then c_set_end s InvalidDimensions
  else if c_first s then
    if has_view VCmd ws
    then c_set_first (print (c_set_current s VCmd) VCmd false "yellow_black" (prompt ++ "[" ++ itoa 0 ++ "]:")) false
    else c_set_end s UnknownView
  else s.

(** sarwin/sarwin.go:350-362 setCurrentViewOnTop *)
Definition set_current_on_top (s : screen) (v : vname) : screen :=
  if has_view v (c_windows s) then
    let s := c_set_current s v in
    let top := if c_packets s then VPacket else v in
    if has_view top (c_windows s) then c_set_windows s (to_top top (c_windows s)) else c_set_end s UnknownView
  else c_set_end s UnknownView.
(** sarwin/sarwin.go:365-381 gotolastrow, which prints where the cursor is; where it
    moves it is left out *)
Definition last_row_text (oy cx cy lines : N) : string :=
  "gotolastrow ox=" ++ itoa oy ++ " oy=" ++ itoa oy ++ " cx=" ++ itoa cx ++ " cy=" ++ itoa cy ++ " blines=" ++ itoa lines ++ newline.
(** sarwin/sarwin.go:389-403, in switchView: the window after the current one *)
Definition next_view (packets : bool) (v : vname) : vname :=
  match v with
  | VCmd => VMsg
  | VMsg => if packets then VPacket else VErr
  | VErr => VCmd
  | VPacket => VErr
  end.
(** sarwin/sarwin.go:384-408 switchView *)
Definition switch_view (s : screen) (oy cx cy lines : N) : screen :=
  match c_current s with
  | Some v =>
      let s := set_current_on_top s (next_view (c_packets s) v) in
      match c_end s with
      | Some _ => s
      | None => print s VErr false "white_black" (last_row_text oy cx cy lines)
      end
  | None => s
  end.
(** sarwin/sarwin.go:559-573 showPacket *)
Definition show_packet (s : screen) : screen :=
  let b := negb (c_packets s) in
  let s := c_set_packets s b in
  let top := if b then VPacket else VMsg in
  if has_view top (c_windows s) then c_set_windows s (to_top top (c_windows s)) else c_set_end s UnknownView.

(** What the main loop of gocui can find: nothing but that the terminal has changed its size, one of
    the goroutines with text, or a key (sarwin/sarwin.go:610-646 Keybindings): Ctrl-Space, with
    the position gotolastrow finds the cursor at; Ctrl-P; Ctrl-C, whose handler is
    sarwin/sarwin.go:551-553 Quit.  The other keys move the cursor, edit the command line or run a command. *)
Inductive event := EResize | EText (i : nat) | ECtrlSpace (oy cx cy lines : N) | ECtrlP | ECtrlC.
(** sarwin/sarwin.go:610-645 Keybindings, and what gocui's main loop does with an event *)
Definition handle (s : screen) (e : event) : screen :=
  match e with
  | EResize => s
  | EText i =>
      match nth_error (c_waiting s) i with
      | Some (v, t) => run_update (c_set_waiting s (drop_nth i (c_waiting s))) v t
      | None => s
      end
  | ECtrlSpace oy cx cy lines => switch_view s oy cx cy lines
  | ECtrlP => show_packet s
  | ECtrlC => c_set_end s Quit
  end.
(** What happens: some goroutine of the program prints, or the main loop of gocui takes an event, unless
    it ends the loop, and draws the screen on a terminal of the size it finds.  The loop draws
    the screen once before its first event.  An error ends the loop and
    with it the program (saratoga/saratoga.go:736-740 gocuimainloop, 726-730). *)
Inductive clabel :=
| CPrint (v : vname) (line : bool) (colour text : string)
| CLoop (e : event) (maxx maxy : Z).
(** One event of gocui's main loop (saratoga/saratoga.go:736-740): it is handled, then Layout
    (sarwin/sarwin.go:167-253) is called *)
Definition cstep (prompt : string) (s : screen) (l : clabel) : screen :=
  match c_end s with
  | Some _ => s
  | None =>
      match l with
      | CPrint v line colour text => print s v line colour text
      | CLoop e maxx maxy =>
          let s := if c_first s then s else handle s e in
          match c_end s with Some _ => s | None => layout prompt s maxx maxy end
      end
  end.
(** No code of its own: several events of gocui's main loop (saratoga/saratoga.go:736-740) *)
Fixpoint crun (prompt : string) (s : screen) (ls : list clabel) : screen :=
  match ls with [] => s | l :: r => crun prompt (cstep prompt s l) r end.
(** saratoga/saratoga.go:540-604: before the first Layout *)
Definition cstart : screen :=
  {| c_windows := []; c_current := None; c_packets := false; c_first := true; c_waiting := []; c_text := fun _ => []; c_end := None |}.
