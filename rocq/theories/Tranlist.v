(** * Model of listing and finding transfers while others are started and removed

    Every command runs in a goroutine of its own (sarwin/sarwin.go:2513).  Info (1089-1130) and Match (911-918) read the table of
    transfers without its lock, one element at a time, while NewInitiator (983) and Remove (1216-1229) replace it under the lock.
    [info] (Cli.v) and [tmatch] (Transfer.v) take each of the readers for one step; here it looks again at each place of the code
    that names Transfers.  Simplification: the slice itself, and one whole element, is read and written in one step. *)

From Verif Require Import GoBase Sarnet Transfer Table.
Local Open Scope string_scope.
Local Open Scope N_scope.

(** ** What others do to the table *)
(** sarwin/sarwin.go:983 (NewInitiator) and 1216-1229 (Remove, of whichever transfer) *)
Inductive change :=
| Added (t : transfer)
| Removed (t : transfer).
(** The table after a change (sarwin/sarwin.go:983, 1216-1229); each is made under Trmu, so that one follows the other *)
Definition do_change (T : list transfer) (c : change) : list transfer :=
  match c with
  | Added t => (T ++ [t])%list
  | Removed t => fst (tremove T t)
  end.
(** Several changes (sarwin/sarwin.go:983, 1216-1229) *)
Definition do_changes (T : list transfer) (cs : list change) : list transfer := fold_left do_change cs T.

(** ** What a command sees *)
(** A computation that looks at the table of the moment, again and again (sarwin/sarwin.go:911-918, 1089-1096) *)
Inductive seen (A : Type) : Type :=
| Done (o : outcome A)
| See (k : list transfer -> seen A).
Arguments Done {A}.
Arguments See {A}.
(** Transfers[i] (sarwin/sarwin.go:913-914, 1093-1094); panics beyond the end *)
Definition see_at {A} (i : nat) (k : transfer -> seen A) : seen A :=
  See (fun T => match nth_error T i with Some t => k t | None => Done Panic end).

(** sarwin/sarwin.go:1097-1129: what is shown of the transfers that were collected *)
Definition info_says (ttype : string) (tinfo : list transfer) : string :=
  match tinfo with
  | [] => "No " ++ ttype ++ " transfers currently in progress"
  | _ => info_text tinfo
  end.
(** sarwin/sarwin.go:1092-1096: [n] elements more, from number [i] on.  Without a type one look, which copies the element; with a
    type one for the test and, if it is the type, another one for the copy. *)
Fixpoint info_scan (ttype : string) (i n : nat) (tinfo : list transfer) : seen string :=
  match n with
  | O => Done (Ret (info_says ttype tinfo))
  | S n =>
      if String.eqb ttype "" then see_at i (fun t => info_scan ttype (S i) n (tinfo ++ [t])%list)
      else see_at i (fun t =>
             if String.eqb (tr_ttype t) ttype then see_at i (fun t => info_scan ttype (S i) n (tinfo ++ [t])%list)
             else info_scan ttype (S i) n tinfo)
  end.
(** sarwin/sarwin.go:1089-1130 Info: a range looks at the length of the table once *)
Definition info_seen (ttype : string) : seen string :=
  See (fun T => info_scan ttype 0 (List.length T) []).

(** sarwin/sarwin.go:912-916: [n] elements are left.  The address is looked up first, the session only if the address is right, and
    the element once more for the pointer. *)
Fixpoint match_scan (addr : string) (session : N) (n : nat) : seen (option nat) :=
  match n with
  | O => Done (Ret None)
  | S i =>
      see_at i (fun t =>
        match remote_string (tr_conn t) with
        | Ret remote =>
            if String.eqb addr remote
            then see_at i (fun t => if session =? tr_session t then see_at i (fun _ => Done (Ret (Some i))) else match_scan addr session i)
            else match_scan addr session i
        | Panic => Done Panic
        | Fatal => Done Fatal
        end)
  end.
(** sarwin/sarwin.go:911-918 Match: the number of the element the pointer points to *)
Definition match_seen (addr : string) (session : N) : seen (option nat) :=
  See (fun T => match_scan addr session (List.length T)).

(** ** Both together *)
(** What happens to the table before the first look, before the second one...; nothing more happens when this is at its end
    (sarwin/sarwin.go:911-918, 1089-1130 while 983, 1216-1229 run) *)
Fixpoint amid {A} (m : seen A) (sched : list (list change)) (T : list transfer) : outcome A :=
  match m with
  | Done o => o
  | See k => let T := do_changes T (hd [] sched) in amid (k T) (tl sched) T
  end.
