(** * Specification vocabulary for the settings under concurrency *)

From Verif Require Import GoBase Flags SpecFlags Config Shipped Data SpecFrames Beacon Transfer Words SpecWords Cli SpecCli Shared.
Local Open Scope string_scope.
Local Open Scope N_scope.

(** The settings after a command that nothing disturbs *)
Definition after_command (args : list string) (c : cliflags) : cliflags :=
  match args with
  | name :: _ => match lookup name setting_commands with Some f => fst (f c args) | None => c end
  | [] => c
  end.
Definition after_job (j : job) (c : cliflags) : cliflags :=
  match j with JSetting args => after_command args c | _ => c end.
Definition is_transfer (j : job) : bool := match j with JTransfer _ => true | _ => false end.

(** Goroutine [i] has finished, and made the copy [d] *)
Definition finished_with (s : rstate) (i : nat) (d : cliflags) : Prop := nth_error (rs_work s) i = Some {| wk_todo := []; wk_copy := d |}.
Definition finished (s : rstate) (i : nat) : bool :=
  match nth_error (rs_work s) i with Some {| wk_todo := [] |} => true | _ => false end.
(** The goroutines in the order in which they finish *)
Fixpoint finishing (s : rstate) (is : list nat) : list nat :=
  match is with
  | [] => []
  | i :: r =>
      match rstep s i with
      | Some s' => if negb (finished s i) && finished s' i then i :: finishing s' r else finishing s' r
      | None => finishing s r
      end
  end.
(** The jobs done by those goroutines, one after the other *)
Fixpoint one_by_one (jobs : list job) (is : list nat) (c : cliflags) : cliflags :=
  match is with
  | [] => c
  | i :: r => one_by_one jobs r (match nth_error jobs i with Some j => after_job j c | None => c end)
  end.

(** Words that set a header flag *)
Definition sets_flag (ws : list string) (f v : string) : Prop :=
  exists cmd a l, ws = [cmd; a] /\ In (cmd, a, l) choices /\ In (Flag f, v) l.
(** At some moment of the run the settings were [c] *)
Definition at_some_moment (s : rstate) (is : list nat) (c : cliflags) : Prop :=
  exists before later, is = (before ++ later)%list /\ rs_set (rrun s before) = c.
