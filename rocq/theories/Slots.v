(** * Model of the table of transfers in memory: its arrays, pointers into them, and going over it by range

    [tptr] (Transfer.v) takes a pointer to an element of the table for its number, and the loops over the table for one step.  Here
    the table is a Go slice: a length and an array, which append replaces by a larger one when it is full (sarwin/sarwin.go:983,
    1222).  Match (911-918) returns a pointer into the array of the moment, and a range loop (899, 923) goes over the array and the
    length of its beginning.  Others start and remove transfers meanwhile, one at a time because of the lock Trmu.
    Simplification: the slice (but see Span.v), and one whole element, is read and written in one step; slots that were never written are left out. *)

From Verif Require Import GoBase Trans Sarnet Transfer Tranlist.
Local Open Scope string_scope.
Local Open Scope N_scope.

(** A backing array: its capacity, and the slots that were written, whether or not the table still has them (sarwin/sarwin.go:895) *)
Record array := { a_cap : nat; a_slots : list transfer }.
(** All arrays there have been, the one of the table, the length of the table (sarwin/sarwin.go:895) *)
Record slots := { s_arrays : list array; s_cur : nat; s_len : nat }.
(** var Transfers = []Transfer{} (sarwin/sarwin.go:895) *)
Definition no_slots : slots := {| s_arrays := [{| a_cap := 0; a_slots := [] |}]; s_cur := 0; s_len := 0 |}.
(** An array (sarwin/sarwin.go:895) *)
Definition array_at (m : slots) (a : nat) : array := nth a (s_arrays m) {| a_cap := 0; a_slots := [] |}.
(** The table: what a loop over Transfers sees at this moment (sarwin/sarwin.go:895) *)
Definition in_table (m : slots) : list transfer := firstn (s_len m) (a_slots (array_at m (s_cur m))).
(** Storing into an array (sarwin/sarwin.go:983, 1222) *)
Definition with_array (m : slots) (a : nat) (A : array) : list array := (firstn a (s_arrays m) ++ A :: skipn (S a) (s_arrays m))%list.

(** append(Transfers, *t) in sarwin/sarwin.go:983: in place if there is room, otherwise all is copied to an array of capacity [grow cap] *)
Definition append_slot (grow : nat -> nat) (m : slots) (t : transfer) : slots :=
  let A := array_at m (s_cur m) in
  if Nat.ltb (s_len m) (a_cap A) then
    {| s_arrays := with_array m (s_cur m)
         {| a_cap := a_cap A; a_slots := (firstn (s_len m) (a_slots A) ++ t :: skipn (S (s_len m)) (a_slots A))%list |};
       s_cur := s_cur m; s_len := S (s_len m) |}
  else
    {| s_arrays := (s_arrays m ++ [{| a_cap := grow (a_cap A); a_slots := (in_table m ++ [t])%list |}])%list;
       s_cur := List.length (s_arrays m); s_len := S (s_len m) |}.
(** append(Transfers[:i], Transfers[i+1:]...) in sarwin/sarwin.go:1222: the elements behind number [i] move down in the same array, the last slot keeps what it has *)
Definition cut_slot (m : slots) (i : nat) : slots :=
  let A := array_at m (s_cur m) in
  {| s_arrays := with_array m (s_cur m)
       {| a_cap := a_cap A;
          a_slots := (firstn i (a_slots A) ++ firstn (s_len m - S i) (skipn (S i) (a_slots A)) ++ skipn (s_len m - 1) (a_slots A))%list |};
     s_cur := s_cur m; s_len := (s_len m - 1)%nat |}.
(** sarwin/sarwin.go:1220-1225: the loop of Remove, [n] elements are left; None: not found *)
Fixpoint remove_slot_loop (m : slots) (t : transfer) (n : nat) : option slots :=
  match n with
  | O => None
  | S i =>
      match tlookup_loop (in_table m) (tr_direction t) (tr_session t) (udpaddr_string (tr_peer t)) with
      | Some _ => Some (cut_slot m i)
      | None => remove_slot_loop m t i
      end
  end.
(** sarwin/sarwin.go:1216-1229 Remove, of a transfer that is [t] when it is read, with Trmu held; the second value says whether it has an error *)
Definition remove_slot (m : slots) (t : transfer) : slots * bool :=
  match remove_slot_loop m t (s_len m) with Some m' => (m', false) | None => (m, true) end.
(** A change by others (sarwin/sarwin.go:983, 1216-1229) *)
Definition slot_change (grow : nat -> nat) (m : slots) (c : change) : slots :=
  match c with Added t => append_slot grow m t | Removed t => fst (remove_slot m t) end.
(** Several changes (sarwin/sarwin.go:983, 1216-1229) *)
Definition slot_changes (grow : nat -> nat) (m : slots) (cs : list change) : slots := fold_left (slot_change grow) cs m.

(** ** rmtran *)
(** &Transfers[i] (sarwin/sarwin.go:914) *)
Definition pointer_to (m : slots) (i : nat) : nat * nat := (s_cur m, i).
(** What a pointer points to now (sarwin/sarwin.go:1217-1228) *)
Definition points_to (m : slots) (p : nat * nat) : option transfer := nth_error (a_slots (array_at m (fst p))) (snd p).
(** t.Remove() in sarwin/sarwin.go:2098, through the pointer that Match returned.  A pointer is to a slot that was written. *)
Definition remove_through (m : slots) (p : nat * nat) : slots * bool :=
  match points_to m p with Some t => remove_slot m t | None => (m, true) end.

(** ** Going over the table by range *)
(** for _, t := range Transfers (sarwin/sarwin.go:899, 923): slot number [k] of array [a], [n] of them; before each one [sched] says what
    others do.  All that is seen; None would be a slot that was never written. *)
Fixpoint range_from (grow : nat -> nat) (m : slots) (a k n : nat) (sched : list (list change)) : list (option transfer) :=
  match n with
  | O => []
  | S n =>
      let m := slot_changes grow m (hd [] sched) in
      points_to m (a, k) :: range_from grow m a (S k) n (tl sched)
  end.
(** The array and the length of the beginning are kept (sarwin/sarwin.go:899, 923) *)
Definition range_over (grow : nat -> nat) (m : slots) (sched : list (list change)) : list (option transfer) :=
  range_from grow m (s_cur m) 0 (s_len m) sched.

(** What NewInitiator's loop decides (sarwin/sarwin.go:923-948) *)
Inductive verdict_on := Accepted | Refused | Unconnected (t : transfer).
(** sarwin/sarwin.go:923-948: one element after the other until there is an objection.  [blocked]: the file exists and would be
    overwritten (931); simplification: this does not change during the loop. *)
Fixpoint check_from (grow : nat -> nat) (m : slots) (a k n : nat) (sched : list (list change)) (blocked : bool) (peer : udpaddr) (fname : string)
  : outcome verdict_on :=
  match n with
  | O => Ret Accepted
  | S n =>
      let m := slot_changes grow m (hd [] sched) in
      match points_to m (a, k) with
      | None => Panic
      | Some i =>
          match tr_conn i with
          | None => Ret (Unconnected i)
          | Some _ =>
              if blocked then Ret Refused
              else if String.eqb fname (tr_filename i) && String.eqb (udpaddr_string peer) (udpaddr_string (tr_peer i)) then Ret Refused
              else check_from grow m a (S k) n (tl sched) blocked peer fname
          end
      end
  end.
(** sarwin/sarwin.go:923-948 *)
Definition check_over (grow : nat -> nat) (m : slots) (sched : list (list change)) (blocked : bool) (peer : udpaddr) (fname : string) : outcome verdict_on :=
  check_from grow m (s_cur m) 0 (s_len m) sched blocked peer fname.
