(** * Specification vocabulary for listing and finding transfers while others are started and removed *)

From Verif Require Import GoBase Sarnet Transfer SpecTransfer SpecTable SpecShow Tranlist.
Local Open Scope string_scope.
Local Open Scope N_scope.

(** The table [T] becomes [T']: a transfer that is started comes to the end; removing one that is there takes away the last one of the
    table, whichever it is (C62); removing one that is not there changes nothing *)
Inductive changed : list transfer -> list change -> list transfer -> Prop :=
| ch_none : forall T, changed T [] T
| ch_added : forall T t cs T', changed (T ++ [t]) cs T' -> changed T (Added t :: cs) T'
| ch_removed : forall T last t u cs T', In u (T ++ [last]) -> same_key t u -> changed T cs T' -> changed (T ++ [last]) (Removed t :: cs) T'
| ch_absent : forall T t cs T', (forall u, In u T -> ~ same_key t u) -> changed T cs T' -> changed T (Removed t :: cs) T'.

(** The table that was [T] is [tables k] when the command looks at it for the time number [k] (the first time is number 0):
    [sched] says what happened before each look *)
Definition moments (T : list transfer) (sched : list (list change)) (tables : nat -> list transfer) : Prop :=
  forall k, changed T (concat (firstn (S k) sched)) (tables k).

(** The transfers of a kind; the empty text stands for all *)
Definition chosen (kind : string) (T : list transfer) : list transfer :=
  if String.eqb kind "" then T else of_kind kind T.
(** What is shown of the transfers [l]: the table of C104, or that there are none *)
Definition transfers_shown (kind : string) (l : list transfer) (text : string) : Prop :=
  (l = [] /\ text = "No " ++ kind ++ " transfers currently in progress") \/
  (l <> [] /\ exists head rows, transfers_table (fun t => ["Initiator"; tr_ttype t; udpaddr_string (tr_peer t); tr_filename t]) l head rows text).

(** Transfers are started, none is removed *)
Definition starts (cs : list change) : Prop := forall c, In c cs -> exists t, c = Added t.
(** Nothing happens at the first [k] looks, then, before look number [k], [cs]; and nothing after that *)
Definition only_at (k : nat) (cs : list change) : list (list change) := (repeat [] k ++ [cs])%list.

(** What looking for the transfer with a session that is connected to an address finds: its number; or nothing; or the program ends *)
Inductive finds (addr : string) (session : N) (T : list transfer) : outcome (option nat) -> Prop :=
| fi_some : forall before t after, T = (before ++ t :: after)%list -> named addr session t ->
    Forall (fun u => connected u /\ ~ named addr session u) after -> finds addr session T (Ret (Some (List.length before)))
| fi_none : Forall (fun u => connected u /\ ~ named addr session u) T -> finds addr session T (Ret None)
| fi_dies : forall before t after, T = (before ++ t :: after)%list -> ~ connected t ->
    Forall (fun u => connected u /\ ~ named addr session u) after -> finds addr session T Panic.
