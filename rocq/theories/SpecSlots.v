(** * Specification vocabulary for pointers to transfers and for going over the table while others are started and removed *)

From Verif Require Import GoBase Trans Sarnet Transfer SpecTransfer Tranlist SpecTranlist Slots.
Local Open Scope string_scope.
Local Open Scope N_scope.

(** append makes a full array larger *)
Definition grows (grow : nat -> nat) : Prop := forall n, (n < grow n)%nat.
(** The memory after a history, from the start of the program on *)
Definition memory_after (grow : nat -> nat) (history : list change) : slots := slot_changes grow no_slots history.
(** The capacity of the table after a history: it is [cap] when the table is [T] *)
Inductive capacity (grow : nat -> nat) : nat -> list transfer -> list change -> nat -> Prop :=
| cp_end : forall cap T, capacity grow cap T [] cap
| cp_room : forall cap T t cs cap', (List.length T < cap)%nat -> capacity grow cap (T ++ [t]) cs cap' -> capacity grow cap T (Added t :: cs) cap'
| cp_full : forall cap T t cs cap', List.length T = cap -> capacity grow (grow cap) (T ++ [t]) cs cap' -> capacity grow cap T (Added t :: cs) cap'
| cp_less : forall cap T T1 t cs cap', changed T [Removed t] T1 -> capacity grow cap T1 cs cap' -> capacity grow cap T (Removed t :: cs) cap'.

(** A pointer to the place number [i] of a table [T] with the capacity [cap] points to [t]; after [cs] it points to the last one: another
    transfer, if the table became so short that the place was free, and a new one came to this place.  When the table outgrows the
    capacity all of it moves; the pointer stays with what it points to then. *)
Inductive comes_to (cap i : nat) : list transfer -> transfer -> list change -> transfer -> Prop :=
| ct_end : forall T t, comes_to cap i T t [] t
| ct_moved : forall T t u cs, List.length T = cap -> comes_to cap i T t (Added u :: cs) t
| ct_place : forall T t u cs v, List.length T = i -> (i < cap)%nat -> comes_to cap i (T ++ [u]) u cs v -> comes_to cap i T t (Added u :: cs) v
| ct_other : forall T t u cs v, List.length T <> i -> (List.length T < cap)%nat -> comes_to cap i (T ++ [u]) t cs v -> comes_to cap i T t (Added u :: cs) v
| ct_less : forall T T1 t x cs v, changed T [Removed x] T1 -> comes_to cap i T1 t cs v -> comes_to cap i T t (Removed x :: cs) v.

(** Transfers are removed, none is started *)
Definition removals (cs : list change) : Prop := forall c, In c cs -> exists t, c = Removed t.

(** Whether a transfer to [peer] of the file [fname] may be started beside those of [l], and if not why *)
Definition objects (blocked : bool) (peer : udpaddr) (fname : string) (t : transfer) : Prop :=
  tr_conn t = None \/ blocked = true \/ (tr_filename t = fname /\ udpaddr_string (tr_peer t) = udpaddr_string peer).
Inductive judged (blocked : bool) (peer : udpaddr) (fname : string) (l : list transfer) : verdict_on -> Prop :=
| ju_accepted : (forall t, In t l -> ~ objects blocked peer fname t) -> judged blocked peer fname l Accepted
| ju_unconnected : forall before t after, l = (before ++ t :: after)%list -> (forall u, In u before -> ~ objects blocked peer fname u) ->
    tr_conn t = None -> judged blocked peer fname l (Unconnected t)
| ju_refused : forall before t after, l = (before ++ t :: after)%list -> (forall u, In u before -> ~ objects blocked peer fname u) ->
    tr_conn t <> None -> objects blocked peer fname t -> judged blocked peer fname l Refused.
