(** * Model of frames/frames.go: Send, and of Send of every frame *)

From Verif Require Import GoBase Flags Config Shipped Timestamp Holes Data Status Request Beacon Fileio Dirent Metadata Trans Listen Sarnet.
Local Open Scope string_scope.
Local Open Scope N_scope.

(** What the system answers when bytes are written to a UDP socket: how many it took, or
    an error.  [None] is Write on a connected socket, [Some to] is WriteTo.
    (conn.Write and conn.WriteTo in beacon.go:305-325, request.go:171-186, metadata.go:319-334, data.go:299-314,
    status.go:359-374) *)
Inductive taken := Took (n : nat) | Refused (e : string).
(** A UDP socket: what it answers to a write (beacon.go:305-325, status.go:359-374) *)
Record socket := { sk_write : option udpaddr -> list byte -> taken; sk_remote : udpaddr }.

(** What a call of Send did: the datagrams written, and the error returned
    (beacon.go:305-325, request.go:171-186, metadata.go:319-334, data.go:299-314, status.go:359-374) *)
Record sent := { sd_wire : list (option udpaddr * list byte); sd_err : error }.

(** The common body of the five Send methods.  The error texts differ in the first word
    and in the address shown (for a beacon the remote end of the connection).
    (beacon.go:305-325, request.go:171-186, metadata.go:319-334, data.go:299-314, status.go:359-374) *)
Definition send_encoded (what : string) (shown : udpaddr) (sk : socket) (to : option udpaddr) (enc : outcome encoded) : outcome sent :=
  do r <- enc;
  match r with
  | EncErr e => Ret {| sd_wire := []; sd_err := Some e |}
  | Frame buf =>
      let did e := Ret {| sd_wire := [(to, buf)]; sd_err := e |} in
      match sk_write sk to buf with
      | Refused e => did (Some e)
      | Took wlen =>
          if negb (Nat.eqb wlen (length buf))
          then did (Some (what ++ " sent (" ++ itoa (N.of_nat wlen) ++ ") to " ++ udpaddr_string shown ++ " != frame size (" ++ itoa (N.of_nat (length buf)) ++ ")"))
          else did None
      end
  end.

(** beacon.go:305-325 Send: the address is that of the connection *)
Definition beacon_send (b : beacon) (sk : socket) : outcome sent :=
  send_encoded "Beacon" (sk_remote sk) sk None (beacon_encode b).
(** request.go:171-186 Send *)
Definition request_send (r : request) (sk : socket) (to : udpaddr) : outcome sent :=
  send_encoded "Request" to sk (Some to) (request_encode r).
(** metadata.go:319-334 Send *)
Definition meta_send (m : metadata) (sk : socket) (to : udpaddr) : outcome sent :=
  send_encoded "MetaData" to sk (Some to) (meta_encode m).
(** data.go:299-314 Send *)
Definition data_send (d : data) (sk : socket) (to : udpaddr) : outcome sent :=
  send_encoded "Data" to sk (Some to) (data_encode d).
(** status.go:359-374 Send *)
Definition status_send (s : status) (sk : socket) (to : udpaddr) : outcome sent :=
  send_encoded "status" to sk (Some to) (status_encode s).

(** frames.go:60-62 Send, on each type.  Beacon's Send takes no address, so that Beacon
    is not a Frame in the Go sense; it is here as a call of its own Send. *)
Definition frame_send (f : frame) (sk : socket) (to : udpaddr) : outcome sent :=
  match f with
  | FBeacon b => beacon_send b sk
  | FRequest r => request_send r sk to
  | FMetadata m => meta_send m sk to
  | FData d => data_send d sk to
  | FStatus s => status_send s sk to
  end.

(** frames.go:38-40 Encode, on each type *)
Definition frame_encode (f : frame) : outcome encoded :=
  match f with
  | FBeacon b => beacon_encode b
  | FRequest r => request_encode r
  | FMetadata m => meta_encode m
  | FData d => data_encode d
  | FStatus s => status_encode s
  end.
