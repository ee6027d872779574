(** * Model of the running daemon: saratoga/saratoga.go main, its two listeners and the user interface *)

From Verif Require Import GoBase Flags Config Shipped Timestamp Holes Data Status Request Beacon Fileio Dirent Metadata Trans Listen.
Local Open Scope string_scope.
Local Open Scope N_scope.

(** saratoga/saratoga.go:582-604: the listener for IPv4 and the one for IPv6 *)
Inductive family := V4 | V6.
(** Auxiliary, no code of its own: equality of the families of saratoga/saratoga.go:582-604 *)
Definition family_eqb (a b : family) : bool := match a, b with V4, V4 | V6, V6 => true | _, _ => false end.

(** saratoga.go:583-593: the unbuffered channels.  errflag (line 599) has a buffer
    of one and is [ds_errflag] below. *)
Inductive chan := CRx (f : family) | CTx (f : family) | CQuit (f : family).
(** Auxiliary, no code of its own: equality of the channels of saratoga/saratoga.go:582-604 *)
Definition chan_eqb (a b : chan) : bool :=
  match a, b with
  | CRx x, CRx y | CTx x, CTx y | CQuit x, CQuit y => family_eqb x y
  | _, _ => false
  end.
(** What goes through the channels of saratoga/saratoga.go:582-604: frames, or the word that a listener ends with
    (184) *)
Inductive value := VPacket (p : packet) | VError.

(** What a goroutine that has reached a channel operation offers.  A send on an unbuffered channel and a
    receive from it happen together or not at all (Go memory model). (saratoga/saratoga.go:166-424, 605-733) *)
Inductive offer := ONone | OSend (c : chan) (v : value) | ORecv (cs : list chan).

(** Where a listener is: in ReadFromUDP (179), at [rx <- ] (237, 250, 307, 350, 397), at
    [tx <- ] (221, 304, 347, 391), at [quit <- err] (183), or returned (saratoga/saratoga.go:166-424.) *)
Inductive lstate := LRead | LRx (p : packet) | LTx (p : packet) | LQuit | LGone.
(** What the listener of saratoga/saratoga.go:166-424 is ready to do on a channel *)
Definition offer_listener (f : family) (l : lstate) : offer :=
  match l with
  | LRx p => OSend (CRx f) (VPacket p)
  | LTx p => OSend (CTx f) (VPacket p)
  | LQuit => OSend (CQuit f) VError
  | LRead | LGone => ONone
  end.
(** Where main is: at its select (606), or inside AddRxTran at [tx <- st.Val(from)],
    called with the transmit channel of the frame's family (630, 662)
    (saratoga/saratoga.go:605-733, trans/trans.go.) *)
Inductive mstate := MSelect | MSend (f : family) (p : packet).
(** What main, saratoga/saratoga.go:605-733, is ready to do on a channel *)
Definition offer_main (m : mstate) : offer :=
  match m with
  | MSelect => ORecv [CRx V4; CRx V6; CTx V4; CTx V6; CQuit V4; CQuit V6]
  | MSend f p => OSend (CTx f) (VPacket p)
  end.

(** Goroutines (saratoga/saratoga.go:582-604: main and the listeners it starts) *)
Inductive gor := GListen (f : family) | GMain.

(** The state.  The last three fields record the history; nothing reads them.
    (saratoga/saratoga.go:439-733 main, 166-424 listen.) *)
Record dstate := {
  ds_listener : family -> lstate;
  ds_main : mstate;
  ds_errflag : bool;
  ds_dead : bool;
  ds_world : world;
  ds_read : family -> list (list byte * udpaddr);
  ds_handled : list (family * gotime * packet);
  ds_shown : list (family * packet)
}.

(** Auxiliary, no code of its own: a function changed at one place (for saratoga/saratoga.go:582-604) *)
Definition upd {A} (g : family -> A) (f : family) (a : A) : family -> A := fun x => if family_eqb x f then a else g x.
(** Assignments to the parts of [dstate]; this one to a listener of saratoga/saratoga.go:166-424 *)
Definition set_l (s : dstate) (f : family) (l : lstate) : dstate :=
  {| ds_listener := upd (ds_listener s) f l; ds_main := ds_main s; ds_errflag := ds_errflag s; ds_dead := ds_dead s;
     ds_world := ds_world s; ds_read := ds_read s; ds_handled := ds_handled s; ds_shown := ds_shown s |}.
(** ... to main (saratoga/saratoga.go:605-733) *)
Definition set_main (s : dstate) (m : mstate) : dstate :=
  {| ds_listener := ds_listener s; ds_main := m; ds_errflag := ds_errflag s; ds_dead := ds_dead s;
     ds_world := ds_world s; ds_read := ds_read s; ds_handled := ds_handled s; ds_shown := ds_shown s |}.
(** ... to files, transfers and peers (saratoga/saratoga.go:607-671) *)
Definition set_world (s : dstate) (w : world) : dstate :=
  {| ds_listener := ds_listener s; ds_main := ds_main s; ds_errflag := ds_errflag s; ds_dead := ds_dead s;
     ds_world := w; ds_read := ds_read s; ds_handled := ds_handled s; ds_shown := ds_shown s |}.
(** ... the end of the process (panic or log.Fatal, e.g. saratoga/saratoga.go:722-725) *)
Definition kill (s : dstate) : dstate :=
  {| ds_listener := ds_listener s; ds_main := ds_main s; ds_errflag := ds_errflag s; ds_dead := true;
     ds_world := ds_world s; ds_read := ds_read s; ds_handled := ds_handled s; ds_shown := ds_shown s |}.
(** ... to the history: a datagram read (saratoga/saratoga.go:179) *)
Definition note_read (s : dstate) (f : family) (d : list byte * udpaddr) : dstate :=
  {| ds_listener := ds_listener s; ds_main := ds_main s; ds_errflag := ds_errflag s; ds_dead := ds_dead s;
     ds_world := ds_world s; ds_read := upd (ds_read s) f (ds_read s f ++ [d])%list; ds_handled := ds_handled s; ds_shown := ds_shown s |}.
(** ... to the history: a frame handled (saratoga/saratoga.go:607-671) *)
Definition note_handled (s : dstate) (h : family * gotime * packet) : dstate :=
  {| ds_listener := ds_listener s; ds_main := ds_main s; ds_errflag := ds_errflag s; ds_dead := ds_dead s;
     ds_world := ds_world s; ds_read := ds_read s; ds_handled := (ds_handled s ++ [h])%list; ds_shown := ds_shown s |}.
(** ... to the history: a frame shown (saratoga/saratoga.go:672-721) *)
Definition note_shown (s : dstate) (h : family * packet) : dstate :=
  {| ds_listener := ds_listener s; ds_main := ds_main s; ds_errflag := ds_errflag s; ds_dead := ds_dead s;
     ds_world := ds_world s; ds_read := ds_read s; ds_handled := ds_handled s; ds_shown := (ds_shown s ++ [h])%list |}.
(** ... to the channel errflag (saratoga/saratoga.go:726, 736-740) *)
Definition set_errflag (s : dstate) (b : bool) : dstate :=
  {| ds_listener := ds_listener s; ds_main := ds_main s; ds_errflag := b; ds_dead := ds_dead s;
     ds_world := ds_world s; ds_read := ds_read s; ds_handled := ds_handled s; ds_shown := ds_shown s |}.

(** What does not change while the daemon runs: the MTU (read once per listener, line
    169), working and file directory, and the handler of requests (saratoga/saratoga.go:166-178, 582-604) *)
Record setup := {
  su_mtu : Z; su_cwd : path; su_sardir : string;
  su_handle : gotime -> path -> string -> fsys -> list rtran -> request -> udpaddr -> outcome reply
}.

(** The scheduler's choices (saratoga/saratoga.go:166-424, 605-733, 736-740) *)
Inductive label :=
| Datagram (f : family) (now : gotime) (d : list byte) (from : udpaddr)   (* ReadFromUDP returns a datagram *)
| Read_error (f : family)                                                 (* ReadFromUDP returns an error *)
| Meet (sender receiver : gor) (now : gotime)                             (* a send and a receive meet *)
| User_quits                                                              (* gocuimainloop sends on errflag (736-740) *)
| Take_errflag                                                            (* main takes it (726) *)
| Files (fs : fsys).                                                      (* anything else changes the files *)

(** What a goroutine of saratoga/saratoga.go:582-733 is ready to do on a channel *)
Definition offer_of (s : dstate) (g : gor) : offer :=
  match g with GListen f => offer_listener f (ds_listener s f) | GMain => offer_main (ds_main s) end.

(** The sender goes on: a listener reads again (or returns, line 184), main returns
    from AddRxTran to its select (saratoga/saratoga.go:166-424) *)
Definition sent (s : dstate) (g : gor) : dstate :=
  match g with
  | GListen f => match ds_listener s f with LQuit => set_l s f LGone | _ => set_l s f LRead end
  | GMain => set_main s MSelect
  end.

(** saratoga.go:607-725: main has received [v] on [c] *)
Definition received (su : setup) (now : gotime) (s : dstate) (c : chan) (v : value) : dstate :=
  match c, v with
  | CRx f, VPacket p =>
      let s := note_handled s (f, now, p) in
      match main_rx_gen (su_handle su) now (su_cwd su) (su_sardir su) (ds_world s) p with
      | Ret (w, None) => set_world s w
      | Ret (w, Some q) => set_main (set_world s w) (MSend f q)
      | _ => kill s
      end
  | CTx f, VPacket p =>
      let s := note_shown s (f, p) in
      match main_tx p with Ret _ => s | _ => kill s end
  | _, _ => kill s                                    (* 722-725: log.Fatal *)
  end.

(** One step; [None]: the choice is not possible in this state (saratoga/saratoga.go:166-424, 605-733) *)
Definition dstep (su : setup) (s : dstate) (l : label) : option dstate :=
  if ds_dead s then None
  else match l with
  | Datagram f now d from =>
      match ds_listener s f with
      | LRead =>
          let s := note_read s f (d, from) in
          Some match listen_one now (su_mtu su) d from with
               | Ret Dropped => s
               | Ret (ToRx p) => set_l s f (LRx p)
               | Ret (ToTx p) => set_l s f (LTx p)
               | _ => kill s
               end
      | _ => None
      end
  | Read_error f => match ds_listener s f with LRead => Some (set_l s f LQuit) | _ => None end
  | Meet i j now =>
      match offer_of s i, offer_of s j with
      | OSend c v, ORecv cs =>
          if existsb (chan_eqb c) cs
          then match j with
               | GMain => Some (received su now (sent s i) c v)
               | GListen _ => None                    (* listeners never receive *)
               end
          else None
      | _, _ => None
      end
  | User_quits => Some (set_errflag s true)
  | Take_errflag =>
      match ds_main s with
      | MSelect => if ds_errflag s then Some (kill s) else None
      | MSend _ _ => None
      end
  | Files fs => Some (set_world s {| w_fs := fs; w_transfers := w_transfers (ds_world s); w_peers := w_peers (ds_world s) |})
  end.

(** A run follows a list of choices; impossible ones are skipped (an execution of saratoga/saratoga.go:605-733) *)
Fixpoint drun (su : setup) (s : dstate) (ls : list label) : dstate :=
  match ls with
  | [] => s
  | l :: r => drun su (match dstep su s l with Some s' => s' | None => s end) r
  end.

(** saratoga.go:582-606: before the first frame *)
Definition start (fs : fsys) : dstate :=
  {| ds_listener := fun _ => LRead; ds_main := MSelect; ds_errflag := false; ds_dead := false;
     ds_world := {| w_fs := fs; w_transfers := []; w_peers := [] |};
     ds_read := fun _ => []; ds_handled := []; ds_shown := [] |}.

(** The daemon as it is (saratoga/saratoga.go:605-733 with trans/trans.go AddRxTran) *)
Definition the_daemon (mtu : Z) (cwd : path) (sardir : string) : setup :=
  {| su_mtu := mtu; su_cwd := cwd; su_sardir := sardir; su_handle := add_rx_tran |}.
