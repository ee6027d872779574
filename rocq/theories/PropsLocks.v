(** * Locks: the properties

    Statements only; the proofs are in LocksMain.v. *)
From Verif Require Import Locks SpecLocks LocksFacts LocksMain.
From Coq Require Import List Bool Arith Lia.
Import ListNotations.

(** C143: every function leaves the mutexes as it found them, on every path: what it has locked it has unlocked as often when
    it returns, and before it waits forever *)
Theorem C143_balanced : forall f t ds fl m, exec (Call f) t ds fl -> locks m t = unlocks m t.
Proof. exact c143_balanced. Qed.
Print Assumptions C143_balanced.

(** C143: a mutex is never unlocked while it is not locked *)
Theorem C143_alive : forall s, occurs s -> l_dead s = false.
Proof. exact c143_alive. Qed.
Print Assumptions C143_alive.

(** C143: a goroutine that is about to unlock a mutex is the one inside it, and the mutex is locked *)
Theorem C143_unlock : forall s i m d r, occurs s -> nth_error (l_threads s) i = Some {| t_done := d; t_todo := Rel m :: r |} ->
  inside m {| t_done := d; t_todo := Rel m :: r |} /\ l_locked s m = true.
Proof. exact c143_unlock. Qed.
Print Assumptions C143_unlock.

(** C143: no two goroutines are inside the same mutex; it is locked exactly while one is *)
Theorem C143_exclusive : forall s m, occurs s ->
  (forall i j t u, nth_error (l_threads s) i = Some t -> nth_error (l_threads s) j = Some u -> inside m t -> inside m u -> i = j) /\
  (l_locked s m = true <-> exists i t, nth_error (l_threads s) i = Some t /\ inside m t).
Proof. exact c143_exclusive. Qed.
Print Assumptions C143_exclusive.

(** C143: no deadlock: as long as some goroutine is neither finished nor waiting forever for something other than a mutex, one of them
    can move on *)
Theorem C143_progress : forall s, occurs s -> (exists i, lstep s i <> None) \/
  (forall t, In t (l_threads s) -> finished t \/ hangs t) /\ forall m, l_locked s m = false.
Proof. exact c143_progress. Qed.
Print Assumptions C143_progress.

(** C143: from every state the goroutines can all come to their ends, or to the places where they wait forever; then no mutex is locked *)
Theorem C143_ends : forall s, occurs s -> exists is, let s' := lrun s is in
  (forall t, In t (l_threads s') -> finished t \/ hangs t) /\ forall m, l_locked s' m = false.
Proof. exact c143_ends. Qed.
Print Assumptions C143_ends.

(** C143: a mutex other than that of the settings becomes free without a step of a goroutine that is inside that of the settings: a [beacon]
    command that is at work for hours holds up the settings and nothing else *)
Theorem C143_apart : forall s m, occurs s -> m <> Climu -> exists is, without Climu s is /\ l_locked (lrun s is) m = false.
Proof. exact c143_apart. Qed.
Print Assumptions C143_apart.

(** C143: nobody waits inside another mutex than Trmu, and there only for the one of the session numbers *)
Theorem C143_order : forall s i t m m' r, occurs s -> nth_error (l_threads s) i = Some t -> inside m t -> t_todo t = Acq m' :: r -> m = Trmu /\ m' = Smu.
Proof. exact c143_order. Qed.
Print Assumptions C143_order.

(** Three goroutines: a transfer is added, a session number is made, the settings are changed.  With the two mutexes in opposite
    order two goroutines would wait for each other. *)
Example C143_ex :
  let ts := [[Acq Trmu; Acq Smu; Rel Smu; Rel Trmu; Hang]; [Acq Smu; Rel Smu]; [Acq Climu; Rel Climu; Acq Climu; Rel Climu]] in
  program ts /\
  (let s := lrun (lstart ts) [1; 0; 2] in lstep s 0 = None /\ lstep s 1 <> None /\ l_locked s Trmu = true) /\
  (let s := lrun (lstart [[Acq Trmu; Acq Smu; Rel Smu; Rel Trmu]; [Acq Smu; Acq Trmu; Rel Trmu; Rel Smu]]) [0; 1] in lstep s 0 = None /\ lstep s 1 = None).
Proof. exact c143_ex. Qed.
