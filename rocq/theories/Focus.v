(** * Model of the window that has the keyboard while commands clear windows

    Every command runs in a goroutine of its own, so the steps of one [clear] mix with those of
    another and with what the user types. *)

From Coq Require Import List String Ascii Bool.
From Verif Require Import GoBase Sarnet Screen Cli.
Import ListNotations.
Local Open Scope string_scope.

(** The steps of sarwin/sarwin.go:106-119 Clearwin: 110-111 remember the name of the current
    window; 114 make the window that is cleared the current one; 115 clear it; 117 make the
    remembered one current.  Simplification: 116, which moves the cursor within the window
    that is cleared, is left out (it is in Cursor.v). *)
Inductive clear_op := OName | OGo (w : vname) | OWipe (w : vname) | OBack.
(** sarwin/sarwin.go:106-119 Clearwin *)
Definition clearwin_ops (w : vname) : list clear_op := [OName; OGo w; OWipe w; OBack].
(** sarwin/sarwin.go:113: the windows by their names in Cli.v *)
Definition vname_of (w : window) : vname := match w with WMsg => VMsg | WErr => VErr | WPacket => VPacket end.
(** sarwin/sarwin.go:1406-1438 cmdClear: the windows for which it calls Clearwin, in order *)
Definition clear_names (args : list string) : list vname :=
  flat_map (fun x => match x with Cleared w => [vname_of w] | _ => [] end) (cmd_clear args).
(** A goroutine: what is left to do, and curname (sarwin/sarwin.go:111) *)
Record clearer := { k_left : list clear_op; k_name : vname }.
(** The screen, as far as the keyboard is concerned: the current window of gocui; what the windows
    show; the text behind the prompt; showpacket; the lines entered; the goroutines of the [clear] commands
    (sarwin/sarwin.go:106-119, 556, 575-607) *)
Record desk := {
  d_focus : vname;
  d_text : vname -> list string;
  d_line : string;
  d_packets : bool;
  d_ran : list string;
  d_clears : list clearer }.
(** Assignments to the parts of [desk]; this one by SetCurrentView (sarwin/sarwin.go:114, 117, 350-362) *)
Definition d_set_focus (d : desk) (v : vname) : desk :=
  {| d_focus := v; d_text := d_text d; d_line := d_line d; d_packets := d_packets d; d_ran := d_ran d; d_clears := d_clears d |}.
(** ... to what a window shows (sarwin/sarwin.go:115, 304-347) *)
Definition d_set_text (d : desk) (v : vname) (t : list string) : desk :=
  {| d_focus := d_focus d; d_text := fun w => if vname_eqb v w then t else d_text d w; d_line := d_line d;
     d_packets := d_packets d; d_ran := d_ran d; d_clears := d_clears d |}.
(** ... to the text behind the prompt (sarwin/sarwin.go:179-191, 519-543) *)
Definition d_set_line (d : desk) (t : string) : desk :=
  {| d_focus := d_focus d; d_text := d_text d; d_line := t; d_packets := d_packets d; d_ran := d_ran d; d_clears := d_clears d |}.
(** ... to showpacket (sarwin/sarwin.go:559-573) *)
Definition d_set_packets (d : desk) (b : bool) : desk :=
  {| d_focus := d_focus d; d_text := d_text d; d_line := d_line d; d_packets := b; d_ran := d_ran d; d_clears := d_clears d |}.
(** ... to the history (sarwin/sarwin.go:594) *)
Definition d_set_ran (d : desk) (r : list string) : desk :=
  {| d_focus := d_focus d; d_text := d_text d; d_line := d_line d; d_packets := d_packets d; d_ran := r; d_clears := d_clears d |}.
(** ... to the goroutines (sarwin/sarwin.go:2513) *)
Definition d_set_clears (d : desk) (ks : list clearer) : desk :=
  {| d_focus := d_focus d; d_text := d_text d; d_line := d_line d; d_packets := d_packets d; d_ran := d_ran d; d_clears := ks |}.

(** One step of sarwin/sarwin.go:106-119 Clearwin.  gocui's windows are taken to exist: Layout has made
    all four before the first key is read (sarwin/sarwin.go:167-253). *)
Definition clear_op_step (d : desk) (name : vname) (o : clear_op) : desk * vname :=
  match o with
  | OName => (d, d_focus d)
  | OGo w => (d_set_focus d w, name)
  | OWipe w => (d_set_text d w [], name)
  | OBack => (d_set_focus d name, name)
  end.
(** Auxiliary, no code of its own: a goroutine of sarwin/sarwin.go:2513 replaced *)
Fixpoint put_clearer (i : nat) (k : clearer) (ks : list clearer) : list clearer :=
  match ks, i with
  | [], _ => []
  | _ :: r, O => k :: r
  | a :: r, S i => a :: put_clearer i k r
  end.
(** A step of goroutine [i] (sarwin/sarwin.go:2513, 106-121); none if it has finished *)
Definition clearer_step (d : desk) (i : nat) : desk :=
  match nth_error (d_clears d) i with
  | Some {| k_left := o :: r; k_name := n |} =>
      let (d', n') := clear_op_step d n o in
      d_set_clears d' (put_clearer i {| k_left := r; k_name := n' |} (d_clears d'))
  | _ => d
  end.
(** sarwin/sarwin.go:575-607 GetLine: in the command window the line is run, 2497-2521 Run, in a new
    goroutine; in the others the key only moves the cursor.  Simplifications: the cursor is at the
    end of the line (see Cursor.v for other places); the commands other than [clear] do not touch the
    current window and are left out; a line that ends the program (Cli.v, get_line) is passed over. *)
Definition enter_key (d : desk) : desk :=
  match d_focus d with
  | VCmd =>
      if String.eqb (d_line d) "" then d
      else
        let args := match run_line (d_line d) with Ret (Some args, _, _) => args | _ => [] end in
        let d' := d_set_line (d_set_ran d (d_ran d ++ [d_line d])%list) "" in
        match args with
        | name :: _ =>
            if String.eqb name "clear"
            then d_set_clears d' (d_clears d' ++ [{| k_left := flat_map clearwin_ops (clear_names args); k_name := VCmd |}])%list
            else d'
        | [] => d'
        end
  | _ => d
  end.
(** What happens: a character is typed, which gocui gives to the current window, and only the command
    window is editable (sarwin/sarwin.go:186, 200, 215, 230); Enter, Ctrl-Space and Ctrl-P are pressed
    (610-646 Keybindings); a text arrives in a window (304-347); a goroutine makes a step.
    Simplification: Ctrl-Space also moves the cursor and prints where it is (Screen.v), Ctrl-P moves a window to the
    top (Screen.v).  A character typed is one byte. *)
Inductive dlabel := DKey (c : ascii) | DEnter | DSwitch | DPackets | DPrint (v : vname) (t : string) | DStep (i : nat).
(** sarwin/sarwin.go:384-408 switchView, 559-573 showPacket, 304-347, 575-607, 106-121 *)
Definition dstep (d : desk) (l : dlabel) : desk :=
  match l with
  | DKey c => match d_focus d with VCmd => d_set_line d (d_line d ++ String c "") | _ => d end
  | DEnter => enter_key d
  | DSwitch => d_set_focus d (next_view (d_packets d) (d_focus d))
  | DPackets => d_set_packets d (negb (d_packets d))
  | DPrint v t => d_set_text d v (d_text d v ++ [t])%list
  | DStep i => clearer_step d i
  end.
(** No code of its own: an execution, one label after the other (sarwin/sarwin.go:610-648) *)
Definition drun (d : desk) (ls : list dlabel) : desk := fold_left dstep ls d.
(** sarwin/sarwin.go:236-252: after the first Layout the command window is current *)
Definition dstart : desk :=
  {| d_focus := VCmd; d_text := fun _ => []; d_line := ""; d_packets := false; d_ran := []; d_clears := [] |}.
