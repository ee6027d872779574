(** * Specification vocabulary for a machine that loses power *)

From Verif Require Import GoBase Timestamp Fileio SpecFileio SpecHandles Partial Crash SpecCrash Power.
Local Open Scope string_scope.
Local Open Scope N_scope.

(** The answers of the system in a history *)
Definition calls (evs : list event) : list answer := flat_map (fun e => match e with ECall a => [a] | EBack _ => [] end) evs.

(** Some of the chunks, in their order *)
Inductive some_of : list chunk -> list chunk -> Prop :=
| some_none : some_of [] []
| some_kept : forall k l l', some_of l l' -> some_of (k :: l) (k :: l')
| some_lost : forall k l l', some_of l l' -> some_of (k :: l) l'.
