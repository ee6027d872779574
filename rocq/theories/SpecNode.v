(** * Specification vocabulary for the running program and for several on a network *)

From Verif Require Import GoBase Flags SpecFlags Config Shipped Timestamp SpecTime Data SpecFrames Beacon SpecBeacon SpecPeers Fileio Metadata Trans Listen SpecListen Daemon SpecDaemon Sarnet Transfer Words SpecWords Cli SpecCli SpecRun SpecSend SpecShow Node.
Local Open Scope string_scope.
Local Open Scope N_scope.

(** The clock of every step that reads it can be written as a timestamp *)
Definition good_nlabel (l : nlabel) : Prop := match l with NNet l => good_label l | _ => True end.
(** A state of the program, whatever arrives, is typed and happens *)
Definition runs_to (mtu : Z) (n : node) : Prop :=
  exists fs cwd ls, (forall l, In l ls -> good_nlabel l) /\ n = nrun mtu (nstart fs cwd) ls.

(** The beacons that the program has taken note of, oldest first *)
Definition heard_by (n : node) : list sighting := beacons_of (ds_handled (n_net n)).
(** The table that a history of beacons calls for *)
Definition right_table (hist : list sighting) (ps : list peer) : Prop :=
  NoDup (map p_addr ps) /\
  (forall a, In a (map p_addr ps) <-> exists b, In b hist /\ sg_from b = Some a) /\
  (forall p, In p ps -> right_entry hist p).

(** ** The end of the program *)

(** Listener [f] of the program is waiting to hand [x] to main *)
Definition hands_over (n : node) (f : family) (x : frame) : Prop := exists a, ds_listener (n_net n) f = LRx {| pk_addr := a; pk_info := x |}.
Inductive ends_program (mtu : Z) (n : node) : nlabel -> Prop :=
| ep_datagram : forall f now d from, datagram_fate mtu d = Died -> ends_program mtu n (NNet (Datagram f now d from))
| ep_request : forall f now r, hands_over n f (FRequest r) -> ends_program mtu n (NNet (Meet (GListen f) GMain now))
| ep_metadata : forall f now m, hands_over n f (FMetadata m) -> 4 <= hd_csumtype (m_header m) -> ends_program mtu n (NNet (Meet (GListen f) GMain now))
| ep_read_error : forall f now, ds_listener (n_net n) f = LQuit -> ends_program mtu n (NNet (Meet (GListen f) GMain now))
| ep_quits : ends_program mtu n (NNet Take_errflag)
| ep_exit : forall line, typed line "exit" \/ typed line "quit" -> ends_program mtu n (NLine line)
| ep_no_prompt : forall line, (forall text, ~ typed line text) -> ends_program mtu n (NLine line)
| ep_blank : forall line text, typed line text -> text <> "" -> words_of text [] -> ends_program mtu n (NLine line)
| ep_command : forall E i t, task_is (n_cli n) i t -> t <> TStart ["peers"] -> deadly E (n_cli n) t -> ends_program mtu n (NStep E i).

(** A step that the program makes because of its user or its own system, not because of
    what it has received *)
Definition by_itself (n : node) (l : nlabel) : Prop :=
  match l with
  | NNet Take_errflag => True
  | NNet (Meet (GListen f) _ _) => ds_listener (n_net n) f = LQuit
  | NNet _ => False
  | NLine _ | NStep _ _ => True
  end.

(** ** Several programs *)

Definition good_wlabel (l : wlabel) : Prop := match l with WOwn _ l => good_nlabel l | WArrive _ _ _ _ now _ => good_now now end.
Definition good_wlabels (ls : list wlabel) : Prop := forall l, In l ls -> good_wlabel l.
(** The node that a step is made by *)
Definition actor (l : wlabel) : nat := match l with WOwn k _ => k | WArrive _ _ k _ _ _ => k end.

(** An entry of the table of peers says what settings [c] say, for a sender whose system
    is [E] and that sent to [to]: its name, what it is willing to do, its descriptor, and
    its free space in kilobytes, or 0 if it does not tell *)
Definition told (E : cenv) (to : udpaddr) (c : cliflags) (p : peer) : Prop :=
  (exists local, ce_dial E to = Some local /\ p_eid p = local ++ "-" ++ itoa (ce_pid E)) /\
  value c (Flag "rxwilling") = KText (p_canrx p) /\
  value c (Flag "txwilling") = KText (p_cantx p) /\
  value c (Flag "descriptor") = KText (p_maxdesc p) /\
  p_freespace p =
    match value c (Flag "freespace"), free_space (ce_sys E) 0 with
    | KText "yes", Some n => n
    | _, _ => 0
    end.
