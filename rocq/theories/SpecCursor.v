(** * Specification vocabulary for what happens inside a window *)

From Coq Require Import ZArith List String Ascii Bool NArith.
From Verif Require Import GoBase Sarnet Table Screen Words SpecWords Cli Cursor.
Import ListNotations.
Local Open Scope string_scope.
Local Open Scope Z_scope.

(** The line the cursor is on, counted from 0 *)
Definition row (v : view) : Z := v_oy v + v_cy v.
(** The cursor is inside the window *)
Definition sane (v : view) : Prop := 0 <= v_ox v /\ 0 <= v_oy v /\ 0 <= v_cx v < v_sx v /\ 0 <= v_cy v < v_sy v.
(** The window has been drawn since it last changed *)
Definition drawn (v : view) : Prop := draw v = v.
(** The first line that is shown when the last lines are: those that do not fit are above *)
Definition first_shown (v : view) : Z := if autoscroll (v_name v) then Z.max 0 (Z.of_nat (List.length (v_lines v)) - v_sy v) else 0.
(** The last [n] of a list *)
Definition last_ones {A} (n : nat) (l : list A) : list A := skipn (List.length l - n) l.

(** No line end in a text *)
Definition one_line (t : string) : Prop := ~ In (ascii_of_N 10) (bytes_of t).
(** Printing one line of text *)
Definition print_line (t : string) : vevent := KPrint (t ++ newline).

(** ** The command line as it should be *)

(** A prompt as it is configured: one line, no colon, so wide that with every number up to
    [n] and the commands typed behind it no line fills the window *)
Definition fits (p : string) (sx : Z) (cs : list string) : Prop :=
  one_line p /\ ~ In ":"%char (bytes_of p) /\
  (forall i c, nth_error cs i = Some c -> Z.of_nat (slen (prompt_text p (N.of_nat i) ++ c)) < sx) /\
  Z.of_nat (slen (prompt_text p (N.of_nat (List.length cs)))) < sx.
(** A line that runs a command and goes on: not blank, and not one of the two words that end the program *)
Definition runs (c : string) : Prop := one_line c /\ c <> "exit" /\ c <> "quit" /\ ~ words_of c [].
(** Type a command, press Enter, wait for the prompt *)
Definition do_one (c : string) : list kevent := [KText c; KEnter; KArrive].
(** The lines of the window after the commands [cs] *)
Definition transcript (p : string) (cs : list string) : list string :=
  (map (fun x => (prompt_text p (N.of_nat (fst x)) ++ snd x)%string) (combine (seq 0 (List.length cs)) cs)
   ++ [prompt_text p (N.of_nat (List.length cs))])%list.
(** The state in which the next command can be typed: the transcript, its last [sy] lines shown, the
    cursor behind the last prompt, nothing on its way, all commands in the history *)
Definition ready (p : string) (sx sy : Z) (cs : list string) (k : cmdline) : Prop :=
  let n := List.length cs in
  k_view k = {| v_name := VCmd; v_ox := 0; v_oy := Z.max 0 (Z.of_nat n + 1 - sy);
                v_cx := Z.of_nat (slen (prompt_text p (N.of_nat n))); v_cy := Z.min (Z.of_nat n) (sy - 1);
                v_sx := sx; v_sy := sy; v_lines := transcript p cs |} /\
  k_info k = {| ci_prompt := p; ci_curline := N.of_nat n; ci_ppad := 3; ci_commands := cs |} /\
  k_waiting k = [].
(** What the lines start: the words of each whose first word is a command *)
Definition started (cs : list string) : list (list string) :=
  flat_map (fun c => match run_line c with Ret (Some ws, _, _) => [ws] | _ => [] end) cs.
