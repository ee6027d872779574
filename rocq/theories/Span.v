(** * Model of going over the table of transfers while its slice is assigned: sarwin/sarwin.go

    Slots.v reads and writes the slice of the table in one step.  For the machine it is several words: where its array is, how long it
    is, and a capacity, which a loop does not look at.  NewInitiator goes over the table without its lock (923-948), and for that
    reads the two words; NewInitiator (983) and Remove (1222) write them, holding the lock.  Here each access to a word is a step.
    The elements are as in Slots.v. *)

From Verif Require Import GoBase Transfer Tranlist Slots Torn.
Local Open Scope string_scope.
Local Open Scope N_scope.

(** The two words of the table (sarwin/sarwin.go:895) *)
Definition table_words (m : slots) : strhdr := {| sh_ptr := s_cur m; sh_len := s_len m |}.
(** The tables that are assigned, one after the other; a removal that finds nothing assigns none (sarwin/sarwin.go:983, 1216-1229) *)
Fixpoint tables (grow : nat -> nat) (m : slots) (cs : list change) : list slots :=
  match cs with
  | [] => []
  | Added t :: r => let m' := append_slot grow m t in m' :: tables grow m' r
  | Removed t :: r => let '(m', failed) := remove_slot m t in if failed then tables grow m r else m' :: tables grow m' r
  end.
(** The changes are about to be made, and a loop over the table is about to begin (sarwin/sarwin.go:923, 983, 1222) *)
Definition range_begin (first_w first_r : word) (grow : nat -> nat) (m : slots) (cs : list change) : copying :=
  {| cy_set := table_words m;
     cy_write := flat_map (fun m' => map (fun w => (w, table_words m')) (both first_w)) (tables grow m cs);
     cy_read := both first_r; cy_copy := {| sh_ptr := 0; sh_len := 0 |} |}.
(** The loop goes over as many elements of an array as it has read, once it has read both words (sarwin/sarwin.go:923) *)
Definition range_words (s : copying) : option (nat * nat) :=
  match cy_read s with [] => Some (sh_ptr (cy_copy s), sh_len (cy_copy s)) | _ => None end.
