(** * Specification: mutexes *)

From Coq Require Import List Bool Arith.
From Verif Require Import Locks.
Import ListNotations.

(** Every goroutine of the program calls, one after the other, some of the functions that lock, on any path
    through them *)
Definition program (ts : list (list act)) : Prop := forall t, In t ts -> exists fs, calls fs t.
(** A state the program can be in, with any number of goroutines, scheduled in any way *)
Definition occurs (s : lstate) : Prop := exists ts is, program ts /\ s = lrun (lstart ts) is.
(** How often a mutex has been locked and unlocked in a piece of work *)
Definition locks (m : mutex) (t : list act) : nat := List.length (filter (fun a => match a with Acq x => if mutex_eq_dec m x then true else false | _ => false end) t).
Definition unlocks (m : mutex) (t : list act) : nat := List.length (filter (fun a => match a with Rel x => if mutex_eq_dec m x then true else false | _ => false end) t).
(** The goroutine has locked the mutex and has not yet unlocked it *)
Definition inside (m : mutex) (t : lthread) : Prop := unlocks m (t_done t) < locks m (t_done t).
(** The goroutine has come to its end; it waits forever for something other than a mutex *)
Definition finished (t : lthread) : Prop := t_todo t = [].
Definition hangs (t : lthread) : Prop := exists r, t_todo t = Hang :: r.
(** The schedule never runs a goroutine that is inside [m] *)
Fixpoint without (m : mutex) (s : lstate) (is : list nat) : Prop :=
  match is with
  | [] => True
  | i :: r => (forall t, nth_error (l_threads s) i = Some t -> ~ inside m t) /\
      exists s', lstep s i = Some s' /\ without m s' r
  end.
