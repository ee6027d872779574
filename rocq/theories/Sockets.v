(** * Model of the sockets and files that the program keeps open

    Transfer.v has what starting and removing transfers does to the table; here the sockets and files that are open are counted:
    net.DialUDP and FileOpen open one, Close closes it.  A socket or file that the program cannot reach any more is closed by Go's
    garbage collector (package net and os set finalizers), at a moment of its choice or never.
    Simplification: what a transfer opens is counted when it is in the table; requests from other nodes, which end the program
    (Transfer.v), are left out. *)

From Verif Require Import GoBase Config Trans Fileio Transfer.
Local Open Scope string_scope.
Local Open Scope N_scope.

(** The transfers and the number of sockets and files open; [lg_beacons]: goroutines that send beacons
    (sarwin/sarwin.go:699-728, 895, 921-986) *)
Record ledger := { lg_i : istate; lg_socks : nat; lg_files : nat; lg_beacons : nat }.

(** The socket that a transfer was given: line 964 *)
Definition sock_of (t : transfer) : nat := match tr_conn t with Some _ => 1 | None => 0 end.
(** The file that a transfer was given: sarwin/sarwin.go:970 *)
Definition file_of (t : transfer) : nat := match tr_fp t with Some _ => 1 | None => 0 end.
(** Auxiliary, no code of its own: all of the transfers of a list (for sarwin/sarwin.go:895) *)
Definition socks_in (l : list transfer) : nat := list_sum (map sock_of l).
(** Auxiliary, no code of its own: the same for files (for sarwin/sarwin.go:895) *)
Definition files_in (l : list transfer) : nat := list_sum (map file_of l).

(** What happens: a transfer is started (NewInitiator, sarwin/sarwin.go:921-986), removed (Remove, 1216-1229), beacons are sent to an
    address (sendbeacons, 699-728: dialled or not, and its end), the garbage collector closes so many sockets and files *)
Inductive happening :=
| HStart (E : ienv) (c : cliflags) (ttype : string) (peer : udpaddr) (fname : string)
| HRemove (t : transfer)
| HBeacons (dialled : bool)
| HBeaconsEnd
| HCollect (socks files : nat).

(** Auxiliary, no code of its own: the table after t.Remove() (sarwin/sarwin.go:1216-1229) *)
Definition with_table (i : istate) (l : list transfer) : istate :=
  {| is_table := l; is_session := is_session i; is_fs := is_fs i; is_cwd := is_cwd i |}.

(** One of them: the state, and the transfer that was started.  The garbage collector closes no socket of the table or of beacons
    (sarwin/sarwin.go:699-728, 921-986, 1216-1229: the only Close is that of line 710) *)
Definition ld_step (sardir : string) (s : ledger) (h : happening) : outcome (ledger * list transfer) :=
  match h with
  | HStart E c ttype peer fname =>
      do ' (i, r) <- new_initiator E sardir c (lg_i s) ttype peer fname;
      match r with
      | None => Ret ({| lg_i := i; lg_socks := lg_socks s; lg_files := lg_files s; lg_beacons := lg_beacons s |}, [])
      | Some t => Ret ({| lg_i := i; lg_socks := lg_socks s + sock_of t; lg_files := lg_files s + file_of t; lg_beacons := lg_beacons s |}, [t])
      end
  | HRemove t =>
      Ret ({| lg_i := with_table (lg_i s) (fst (tremove (is_table (lg_i s)) t)); lg_socks := lg_socks s; lg_files := lg_files s;
              lg_beacons := lg_beacons s |}, [])
  | HBeacons dialled =>
      Ret (if dialled then {| lg_i := lg_i s; lg_socks := S (lg_socks s); lg_files := lg_files s; lg_beacons := S (lg_beacons s) |} else s, [])
  | HBeaconsEnd =>
      Ret (match lg_beacons s with
           | O => s
           | S b => {| lg_i := lg_i s; lg_socks := lg_socks s - 1; lg_files := lg_files s; lg_beacons := b |}
           end, [])
  | HCollect k m =>
      let k := Nat.min k (lg_socks s - lg_beacons s - socks_in (is_table (lg_i s))) in
      let m := Nat.min m (lg_files s - files_in (is_table (lg_i s))) in
      Ret ({| lg_i := lg_i s; lg_socks := lg_socks s - k; lg_files := lg_files s - m; lg_beacons := lg_beacons s |}, [])
  end.
(** One after the other, with all the transfers that were started (sarwin/sarwin.go:699-728, 921-986, 1216-1229) *)
Fixpoint ld_run (sardir : string) (hs : list happening) (s : ledger) : outcome (ledger * list transfer) :=
  match hs with
  | [] => Ret (s, [])
  | h :: r =>
      do ' (s, l) <- ld_step sardir s h;
      do ' (s, l') <- ld_run sardir r s;
      Ret (s, (l ++ l')%list)
  end.
