(** * Specification vocabulary for the running daemon *)

From Verif Require Import GoBase Flags SpecFlags Shipped SpecWire Timestamp SpecTime Data SpecFrames Status Request Beacon SpecPeers Fileio Dirent Metadata Trans Listen SpecListen Daemon.
Local Open Scope string_scope.
Local Open Scope N_scope.

(** The frames held by the datagrams of a history that are handed on, in order *)
Definition frames_in (mtu : Z) (hist : list (list byte * udpaddr)) : list packet :=
  flat_map (fun d : list byte * udpaddr =>
    match datagram_fate mtu (fst d), frame_in (fst d) with
    | HandedOn, Some x => [{| pk_addr := snd d; pk_info := x |}]
    | _, _ => []
    end) hist.
(** The datagrams of a history that are answered *)
Definition is_answered (mtu : Z) (d : list byte * udpaddr) : bool :=
  match datagram_fate mtu (fst d) with Answered => true | _ => false end.
(** The answer to a datagram *)
Definition answers_to (mtu : Z) (d : list byte * udpaddr) (p : packet) : Prop :=
  pk_addr p = snd d /\ exists st, pk_info p = FStatus st /\
  ((hd_version (number_at (fst d) 0 4) = 0 /\ error_status st [("errcode", "badpacket")] 0 0) \/
   (hd_version (number_at (fst d) 0 4) = 1 /\
    exists ds, reads sar (number_at (fst d) 0 4) "descriptor" ds /\
               error_status st (bad_settings ds) (fst (quoted (fst d))) (snd (quoted (fst d))))).

(** What main has handled of one family, in order *)
Definition handled_of (f : family) (s : dstate) : list packet :=
  map snd (filter (fun h : family * gotime * packet => family_eqb (fst (fst h)) f) (ds_handled s)).
Definition shown_of (f : family) (s : dstate) : list packet :=
  map snd (filter (fun h : family * packet => family_eqb (fst h) f) (ds_shown s)).
(** The frame that the listener of a family is waiting to hand over, if any *)
Definition waiting_rx (f : family) (s : dstate) : list packet := match ds_listener s f with LRx p => [p] | _ => [] end.
Definition waiting_tx (f : family) (s : dstate) : list packet := match ds_listener s f with LTx p => [p] | _ => [] end.

(** The beacons that main has handled, with the time and the sender *)
Definition beacons_of (hs : list (family * gotime * packet)) : list sighting :=
  flat_map (fun h : family * gotime * packet =>
    match pk_info (snd h) with
    | FBeacon b => [{| sg_now := snd (fst h); sg_beacon := b; sg_from := Some (ua_ip (pk_addr (snd h))) |}]
    | _ => []
    end) hs.

(** The clock of every step can be written as a timestamp *)
Definition good_label (l : label) : Prop :=
  match l with Datagram _ now _ _ | Meet _ _ now => good_now now | _ => True end.

(** A state that a daemon started on some files can reach *)
Definition reachable (su : setup) (s : dstate) : Prop := exists fs ls, s = drun su (start fs) ls.
(** ... with sensible clocks *)
Definition reachable_good (su : setup) (s : dstate) : Prop :=
  exists fs ls, (forall l, In l ls -> good_label l) /\ s = drun su (start fs) ls.

(** The daemon if requests were read from the flag that holds their type (and
    transfers stamped with some timestamp type) *)
Definition daemon_reading (timetype : string) (mtu : Z) (cwd : path) (sardir : string) : setup :=
  {| su_mtu := mtu; su_cwd := cwd; su_sardir := sardir; su_handle := add_rx_tran_gen "reqtype" timetype |}.

(** ** What ends the daemon *)

(** A datagram that ends it: while it is read, or when main is handed the frame, which is a
    request, or metadata with an undefined checksum type *)
Definition lethal (mtu : Z) (d : list byte) : Prop :=
  let h := number_at d 0 4 in
  match datagram_fate mtu d with
  | Died => True
  | HandedOn => hd_frametype h = 1 \/ hd_frametype h = 2 /\ 4 <= hd_csumtype h
  | _ => False
  end.
(** Nothing happens that should end it: no lethal datagram, no failing socket, no user who quits *)
Definition harmless (mtu : Z) (l : label) : Prop :=
  match l with Datagram _ _ d _ => ~ lethal mtu d | Read_error _ | User_quits => False | _ => True end.
