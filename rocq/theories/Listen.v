(** * Model of saratoga/saratoga.go: listen, and what main does with a received frame *)

From Verif Require Import GoBase Flags Config Shipped Timestamp Holes Data Status Request Beacon Fileio Dirent Metadata Trans.
Local Open Scope string_scope.
Local Open Scope N_scope.

(** beacon.go:31-34, data.go:33-36, metadata.go:32-35, request.go:29-32, status.go:35-38:
    the Packet types, as one sum *)
Inductive frame :=
| FBeacon (b : beacon)
| FRequest (r : request)
| FMetadata (m : metadata)
| FData (d : data)
| FStatus (s : status).
(** beacon/beacon.go:31-34, data/data.go:33-36, metadata/metadata.go:32-35, request/request.go:29-32,
    status/status.go:35-38: a frame with its sender *)
Record packet := { pk_addr : udpaddr; pk_info : frame }.

(** beacon.go:37-40 Val *)
Definition beacon_val (b : beacon) (a : udpaddr) : packet :=
  {| pk_addr := a; pk_info := FBeacon {| b_header := b_header b; b_freespace := b_freespace b; b_eid := b_eid b |} |}.
(** data.go:39-43 Val *)
Definition data_val (d : data) (a : udpaddr) : packet :=
  {| pk_addr := a; pk_info := FData {| d_header := d_header d; d_session := d_session d; d_tstamp := d_tstamp d;
                                       d_offset := d_offset d; d_payload := d_payload d |} |}.
(** metadata.go:39-43 Val *)
Definition meta_val (m : metadata) (a : udpaddr) : packet :=
  {| pk_addr := a; pk_info := FMetadata {| m_header := m_header m; m_session := m_session m;
                                           m_checksum := m_checksum m; m_dir := dirent_copy (m_dir m) |} |}.
(** request.go:35-38 Val *)
Definition request_val (r : request) (a : udpaddr) : packet :=
  {| pk_addr := a; pk_info := FRequest {| r_header := r_header r; r_session := r_session r;
                                          r_fname := r_fname r; r_auth := r_auth r |} |}.
(** status.go:42-48 Val *)
Definition status_val (s : status) (a : udpaddr) : packet :=
  {| pk_addr := a; pk_info := FStatus {| s_header := s_header s; s_session := s_session s; s_tstamp := s_tstamp s;
                                         s_progress := s_progress s; s_inrespto := s_inrespto s; s_holes := s_holes s |} |}.

(** What one iteration of the listener's loop does (saratoga/saratoga.go:166-424) *)
Inductive heard :=
| Dropped                 (* continue *)
| ToRx (p : packet)       (* rx <- p *)
| ToTx (p : packet).      (* tx <- p *)

(** saratoga.go:292-305, 335-348, 379-392: the answer to a frame that does not decode *)
Definition bad_frame (now : gotime) (header session progress : N) (from : udpaddr) : outcome heard :=
  do ds <- sf_getstr sar header "descriptor";
  do ' (st, e) <- status_new now zero_status
        ("descriptor=" ++ ds ++ ",metadatarecvd=no,allholes=yes,reqholes=requested,errcode=badpacket")
        {| si_session := session; si_progress := progress; si_inrespto := 0; si_holes := [] |};
  match e with
  | Some _ => Ret Dropped
  | None => Ret (ToTx (status_val st from))
  end.

(** saratoga.go:166-424 listen: one iteration of the loop, after ReadFromUDP has
    returned without error for datagram [dgram] from [from].  [mtu] is sarflags.Mtu().
    ReadFromUDP stores at most len(buf) bytes and discards the rest; the buffer is
    made once before the loop (a negative length panics there: [new_buf] in Memory.v). *)
Definition listen_one (now : gotime) (mtu : Z) (dgram : list byte) (from : udpaddr) : outcome heard :=
  let maxframesize := (mtu - 60)%Z in
  let buf := firstn (Z.to_nat (maxframesize + 100)) dgram in
  let framelen := length buf in
  if Nat.ltb framelen 8 then Ret Dropped
  else if (maxframesize <? Z.of_nat framelen)%Z then Ret Dropped
  else
    let framebuf := buf in
    do header <- get_uint 4 framebuf 0 4;
    do version <- sf_getstr sar header "version";
    if negb (String.eqb version "v1") then
      do ' (st, e) <- status_new now zero_status "errcode=badpacket" no_info;
      match e with
      | Some _ => Ret Dropped
      | None => Ret (ToTx (status_val st from))
      end
    else
      do frametype <- sf_getstr sar header "frametype";
      if String.eqb frametype "beacon" then
        do ' (b, e) <- beacon_decode zero_beacon framebuf;
        match e with
        | Some _ => Ret Dropped
        | None => Ret (ToRx (beacon_val b from))
        end
      else if String.eqb frametype "request" then
        do ' (r, e) <- request_decode zero_request framebuf;
        match e with
        | Some _ => Ret Dropped
        | None => Ret (ToRx (request_val r from))
        end
      else if String.eqb frametype "data" then
        do ' (d, e) <- data_decode zero_data framebuf;
        match e with
        | Some _ => bad_frame now header (d_session d) (d_offset d) from
        | None => Ret (ToRx (data_val d from))
        end
      else if String.eqb frametype "metadata" then
        do ' (m, e) <- meta_decode zero_metadata framebuf;
        match e with
        | Some _ => do session <- get_uint 4 framebuf 4 8; bad_frame now header session 0 from
        | None => Ret (ToRx (meta_val m from))
        end
      else if String.eqb frametype "status" then
        do ' (s, e) <- status_decode zero_status framebuf;
        match e with
        | Some _ => do session <- get_uint 4 framebuf 4 8; bad_frame now header session 0 from
        | None =>
            (* lines 394-395 print the frame *)
            do _ <- status_shortprint_ok s;
            do _ <- status_print_ok s;
            Ret (ToRx (status_val s from))
        end
      else Ret Dropped.

(** What main does with a frame: the state it changes (saratoga/saratoga.go:607-671) *)
Record world := { w_fs : fsys; w_transfers : list rtran; w_peers : list peer }.

(** saratoga.go:607-639, 640-671: the cases for a frame from rxv4frame / rxv6frame.  The result is the
    new state and the frame main sends on the transmit channel of that family while
    handling (AddRxTran, lines 630 and 662), if any.  [handle] is AddRxTran; beacon.NewPeer is called
    with the address of the packet, never nil. *)
Definition main_rx_gen (handle : gotime -> path -> string -> fsys -> list rtran -> request -> udpaddr -> outcome reply)
    (now : gotime) (cwd : path) (sardir : string) (w : world) (p : packet) : outcome (world * option packet) :=
  match pk_info p with
  | FBeacon b =>
      do _ <- beacon_shortprint_ok b;
      do ' (ps, _) <- new_peer now (w_peers w) b (Some (ua_ip (pk_addr p)));
      Ret ({| w_fs := w_fs w; w_transfers := w_transfers w; w_peers := ps |}, None)
  | FData d => do _ <- data_shortprint_ok d; Ret (w, None)
  | FMetadata m => do _ <- meta_shortprint_ok m; Ret (w, None)
  | FRequest r =>
      do _ <- request_shortprint_ok r;
      do rp <- handle now cwd sardir (w_fs w) (w_transfers w) r (pk_addr p);
      Ret ({| w_fs := rp_fs rp; w_transfers := rp_transfers rp; w_peers := w_peers w |},
           match rp_answer rp with Some (a, st) => Some (status_val st a) | None => None end)
  | FStatus s => do _ <- status_shortprint_ok s; Ret (w, None)
  end.
(** saratoga.go:607-671 as it is *)
Definition main_rx := main_rx_gen add_rx_tran.

(** saratoga.go:672-696, 697-721: a frame from a transmit channel is only printed *)
Definition main_tx (p : packet) : outcome unit :=
  match pk_info p with
  | FBeacon b => beacon_shortprint_ok b
  | FData d => data_shortprint_ok d
  | FMetadata m => meta_shortprint_ok m
  | FRequest r => request_shortprint_ok r
  | FStatus s => status_shortprint_ok s
  end.
