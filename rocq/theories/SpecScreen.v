(** * Specification: what the user sees on the screen *)

From Coq Require Import ZArith List String Ascii Bool NArith.
From Verif Require Import GoBase Sarnet Screen.
Import ListNotations.
Local Open Scope string_scope.
Local Open Scope Z_scope.

(** ** Colours *)

(** The eight colours of a terminal, in the order of their codes *)
Definition hues : list string := ["black"; "red"; "green"; "yellow"; "blue"; "magenta"; "cyan"; "white"].
Definition digit (i : nat) : string := String (ascii_of_nat (48 + i)) "".
(** Names of colours of text and their codes: 30 to 37, with bold, underlined or inverse *)
Inductive text_code : string -> string -> Prop :=
| text_bold : forall i h, nth_error hues i = Some h -> text_code h ("3" ++ digit i ++ ";1")
| text_underlined : forall i h, nth_error hues i = Some h -> text_code ("u" ++ h) ("3" ++ digit i ++ ";4")
| text_inverse : forall i h, nth_error hues i = Some h -> text_code ("i" ++ h) ("3" ++ digit i ++ ";7").
(** Names of colours of the background and their codes: 40 to 47 *)
Inductive back_code : string -> string -> Prop :=
| back_plain : forall i h, nth_error hues i = Some h -> back_code h ("4" ++ digit i ++ ";1")
| back_bright : forall i h, nth_error hues i = Some h -> back_code ("b" ++ h) ("4" ++ digit i ++ ";4").
(** The escape sequence that sets both *)
Definition escape (codes : string) : string := String (ascii_of_nat 27) "" ++ "[" ++ codes ++ "m".
(** What a colour that the program knows is on the terminal *)
Inductive paints : string -> string -> Prop :=
| paints_default : paints "" ""
| paints_none : paints "none" ""
| paints_off : paints "off" (escape "0")
| paints_both : forall f b cf cb, text_code f cf -> back_code b cb -> paints (f ++ "_" ++ b) (escape (cf ++ ";" ++ cb))
| paints_text : forall f cf, text_code f cf -> paints f (escape (cf ++ ";40;1")).

(** ** Windows *)

(** Does the cell in column [x] and row [y] belong to the terminal, and to a window *)
Definition on_terminal (cols rows x y : Z) : Prop := 0 <= x < cols /\ 0 <= y < rows.
Definition covers (r : rect) (x y : Z) : Prop := x0 r <= x <= x1 r /\ y0 r <= y <= y1 r.
(** The user sees window [v] in that cell: it covers the cell and none that covers it is drawn later *)
Definition seen (ws : windows) (x y : Z) (v : vname) : Prop :=
  exists before r after, ws = (before ++ (v, r) :: after)%list /\ covers r x y /\ forall w q, In (w, q) after -> ~ covers q x y.
(** The part of the terminal each window is meant to take: the messages the upper three quarters, the
    command line and the errors the left and the right half of the rest, and the packets the
    right quarter of the inside of the messages *)
Definition top_rows (rows : Z) : Z := rows - rows / 4 + 1.
Definition share (cols rows : Z) (v : vname) (x y : Z) : Prop :=
  match v with
  | VMsg => y < top_rows rows
  | VCmd => top_rows rows <= y /\ x < cols / 2
  | VErr => top_rows rows <= y /\ cols / 2 <= x
  | VPacket => cols - cols / 4 <= x < cols - 1 /\ 1 <= y < top_rows rows - 1
  end.

(** ** What has happened *)

(** The sizes of the terminal each time the screen was drawn, and the last *)
Definition sizes (ls : list clabel) : list (Z * Z) :=
  flat_map (fun l => match l with CLoop _ c r => [(c, r)] | _ => [] end) ls.
Definition size (ls : list clabel) : option (Z * Z) := last (map Some (sizes ls)) None.
(** The events taken.  The first drawing of the screen comes before any event. *)
Definition events (ls : list clabel) : list event :=
  tl (flat_map (fun l => match l with CLoop e _ _ => [e] | _ => [] end) ls).
Definition is_ctrl_p (e : event) : bool := match e with ECtrlP => true | _ => false end.
Definition is_ctrl_space (e : event) : bool := match e with ECtrlSpace _ _ _ _ => true | _ => false end.
Definition presses (key : event -> bool) (ls : list clabel) : nat := length (filter key (events ls)).
(** The packet window is on after an odd number of presses of Ctrl-P *)
Definition packets_on (ls : list clabel) : bool := Nat.odd (presses is_ctrl_p ls).
(** How the program ends, if it does: Ctrl-C, or a terminal with less than 12 columns or rows *)
Fixpoint fate (drawn : bool) (ls : list clabel) : option ending :=
  match ls with
  | [] => None
  | CPrint _ _ _ _ :: r => fate drawn r
  | CLoop e cols rows :: r =>
      if drawn && (match e with ECtrlC => true | _ => false end) then Some Quit
      else if (cols <? 12) || (rows <? 12) then Some InvalidDimensions
      else fate true r
  end.

(** ** Text *)

(** The texts printed so far, in order: those printed by the program, the first prompt, and the note
    that each press of Ctrl-Space prints *)
Fixpoint said (prompt : string) (drawn : bool) (ls : list clabel) : list (vname * string) :=
  match ls with
  | [] => []
  | CPrint v line colour text :: r => (v, painted line colour text) :: said prompt drawn r
  | CLoop e _ _ :: r =>
      ((if drawn
        then match e with ECtrlSpace oy cx cy lines => [(VErr, painted false "white_black" (last_row_text oy cx cy lines))] | _ => [] end
        else [(VCmd, painted false "yellow_black" (prompt ++ "[0]:"))])
       ++ said prompt true r)%list
  end.
(** Those for one window *)
Definition for_window (v : vname) (l : list (vname * string)) : list string :=
  map snd (filter (fun e => vname_eqb v (fst e)) l).

(** How often a key is pressed in a part of a run that does not begin with the first drawing *)
Definition strokes (key : event -> bool) (ls : list clabel) : nat :=
  length (filter key (flat_map (fun l => match l with CLoop e _ _ => [e] | _ => [] end) ls)).
(** The round that the cursor makes through the windows *)
Definition round (packets : bool) : list vname := if packets then [VCmd; VMsg; VPacket; VErr] else [VCmd; VMsg; VErr].
