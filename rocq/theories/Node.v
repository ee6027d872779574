(** * Model of the running program: the daemon and the command line in one process, and several of them on a network *)

From Verif Require Import GoBase Flags Config Shipped Timestamp Data Beacon Fileio Trans Listen Daemon Sarnet Transfer Words Cli.
Local Open Scope string_scope.
Local Open Scope N_scope.

(** saratoga/saratoga.go:444-740 main and what it starts: the two listeners, its own loop and the user
    interface, from which commands are run.  They share beacon.Peers and the files; both
    parts of the model hold a copy of these, and each step of one part updates the copy of
    the other. *)
Record node := { n_net : dstate; n_cli : ystate }.
(** log.Fatal and panic in any goroutine, and the return of main, end the process (saratoga/saratoga.go:439-740) *)
Definition n_dead (n : node) : bool := ds_dead (n_net n) || y_dead (n_cli n).

(** The daemon of a node: its working directory is the one of the process, which starting
    a transfer changes; the sardir is that of the settings
    (saratoga/saratoga.go:582-604, fileio/fileio.go:55 os.Chdir) *)
Definition node_setup (mtu : Z) (n : node) : setup :=
  the_daemon mtu (is_cwd (y_tran (n_cli n))) (cl_sardir (y_cli (n_cli n))).

(** What happens in a process (saratoga/saratoga.go:439-740): a step of the daemon, a line entered, a step of a
    command *)
Inductive nlabel := NNet (l : label) | NLine (line : string) | NStep (E : cenv) (i : nat).
(** A step of the command line, after which the daemon finds the files changed (sarwin/sarwin.go:2497-2521) *)
Definition nstep_cli (n : node) (l : ylabel) : option node :=
  match ystep (n_cli n) l with
  | Some c =>
      let w := ds_world (n_net n) in
      Some {| n_net := set_world (n_net n) {| w_fs := is_fs (y_tran c); w_transfers := w_transfers w; w_peers := w_peers w |}; n_cli := c |}
  | None => None
  end.
(** One such step (saratoga/saratoga.go:605-733, sarwin/sarwin.go:2497-2521) *)
Definition nstep (mtu : Z) (n : node) (l : nlabel) : option node :=
  if n_dead n then None
  else match l with
  | NNet l =>
      match dstep (node_setup mtu n) (n_net n) l with
      | Some d => Some {| n_net := d; n_cli := y_other (n_cli n) (w_fs (ds_world d)) (w_peers (ds_world d)) |}
      | None => None
      end
  | NLine line => nstep_cli n (YLine line)
  | NStep E i => nstep_cli n (YStep E i)
  end.
(** Choices that are not possible are passed over (saratoga/saratoga.go:605-733) *)
Fixpoint nrun (mtu : Z) (n : node) (ls : list nlabel) : node :=
  match ls with
  | [] => n
  | l :: r => nrun mtu (match nstep mtu n l with Some n' => n' | None => n end) r
  end.
(** saratoga/saratoga.go:582-604: the process when its loop starts *)
Definition nstart (fs : fsys) (cwd : path) : node := {| n_net := start fs; n_cli := ystart fs cwd [] |}.

(** ** Several nodes *)

(** The network: the MTU of each node, and whether what node [j] sends to an address can
    reach the listener [f] of node [k], and then with which sender's address
    (no code in /repo: the surroundings of the processes of saratoga/saratoga.go:439-740) *)
Record network := { nw_mtu : nat -> Z; nw_carries : nat -> udpaddr -> nat -> family -> udpaddr -> bool }.
(** Several processes of saratoga/saratoga.go:439-740 *)
Definition nodes := nat -> node.
(** Auxiliary, no code: one process of [nodes] changed (saratoga/saratoga.go:439-740) *)
Definition put (st : nodes) (k : nat) (n : node) : nodes := fun j => if Nat.eqb j k then n else st j.
(** Node [k] does something by itself, or the [m]th datagram that node [j] ever sent
    arrives at node [k].  A datagram may arrive late, out of order, more than once, or
    never, but not changed.
    (no code in /repo: what UDP does between saratoga/saratoga.go:179 and sarwin/sarwin.go:699-733) *)
Inductive wlabel :=
| WOwn (k : nat) (l : nlabel)
| WArrive (j m k : nat) (f : family) (now : gotime) (from : udpaddr).
(** Auxiliary, no code: the steps that only the network chooses (saratoga/saratoga.go:179 ReadFromUDP) *)
Definition is_arrival (l : nlabel) : bool := match l with NNet (Datagram _ _ _ _) => true | _ => false end.
(** One step of several processes (saratoga/saratoga.go:605-733 in each) and the network *)
Definition wstep (N : network) (st : nodes) (l : wlabel) : option nodes :=
  match l with
  | WOwn k l => if is_arrival l then None else option_map (put st k) (nstep (nw_mtu N k) (st k) l)
  | WArrive j m k f now from =>
      match nth_error (y_sent (n_cli (st j))) m with
      | Some (_, to, d) =>
          if nw_carries N j to k f from then option_map (put st k) (nstep (nw_mtu N k) (st k) (NNet (Datagram f now d from))) else None
      | None => None
      end
  end.
(** No code of its own: several such steps (saratoga/saratoga.go:605-733) *)
Fixpoint wrun (N : network) (st : nodes) (ls : list wlabel) : nodes :=
  match ls with
  | [] => st
  | l :: r => wrun N (match wstep N st l with Some st' => st' | None => st end) r
  end.
(** Every process as saratoga/saratoga.go:582-604 leaves it *)
Definition wstart (fs : nat -> fsys) (cwd : nat -> path) : nodes := fun k => nstart (fs k) (cwd k).
