(** * Model of beacon/beacon.go: concurrent callers of NewPeer *)

From Verif Require Import GoBase Flags Config Shipped Timestamp Data Beacon.
Local Open Scope string_scope.
Local Open Scope N_scope.

(** beacon.go:345 One call: the beacon, the sender's address and the time that
    the clock shows when the call stamps the entry *)
Record caller := { c_now : gotime; c_beacon : beacon; c_addr : string }.

(** Where a call is.  The scan of beacon.go:350-351 runs without the lock: the
    range expression fixes the length, and entries never move or change address,
    so the scan as a whole sees one table.  The rest, beacon.go:352-369 or
    382-384, runs under the lock. *)
Inductive pc :=
| Start                      (* beacon.go:350 *)
| Found (i : nat)            (* beacon.go:352, waiting for the lock *)
| NotFound                   (* beacon.go:382, waiting for the lock *)
| DoneChanged (r : bool)     (* returned from 366 or 368 *)
| DoneNew.                   (* returned from 385 *)

(** beacon.go:350-351: index of the first entry with this address *)
Fixpoint scan (ps : list peer) (addr : string) : option nat :=
  match ps with
  | [] => None
  | p :: r => if String.eqb (p_addr p) addr then Some 0%nat
              else match scan r addr with Some i => Some (S i) | None => None end
  end.

(** Peers[p] = ... (beacon/beacon.go:352-369) *)
Definition set_nth {A} (i : nat) (x : A) (l : list A) : list A := (firstn i l ++ x :: skipn (S i) l)%list.

(** One step of one call (beacon/beacon.go:344-385) *)
Definition call_step (c : caller) (p : pc) (ps : list peer) : outcome (pc * list peer) :=
  match p with
  | Start => Ret (match scan ps (c_addr c) with Some i => Found i | None => NotFound end, ps)
  | Found i =>
      match nth_error ps i with
      | Some q => do ' (q', ch) <- peer_change (c_now c) q (c_beacon c); Ret (DoneChanged ch, set_nth i q' ps)
      | None => Panic
      end
  | NotFound => do q <- peer_new (c_now c) (c_beacon c) (c_addr c); Ret (DoneNew, (ps ++ [q])%list)
  | DoneChanged r => Ret (DoneChanged r, ps)
  | DoneNew => Ret (DoneNew, ps)
  end.

(** A schedule names, step by step, the call that runs
    (beacon/beacon.go:344-385 NewPeer, called from several goroutines) *)
Fixpoint run_calls (cs : list caller) (sched : list nat) (pcs : list pc) (ps : list peer)
  : outcome (list pc * list peer) :=
  match sched with
  | [] => Ret (pcs, ps)
  | i :: r =>
      match nth_error cs i, nth_error pcs i with
      | Some c, Some p => do ' (p', ps') <- call_step c p ps; run_calls cs r (set_nth i p' pcs) ps'
      | _, _ => run_calls cs r pcs ps
      end
  end.
