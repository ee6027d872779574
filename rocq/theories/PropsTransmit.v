(** * Transmit: the properties

    Statements only; the proofs are in TransmitMain.v. *)
From Verif Require Import GoBase GoFacts Flags Config Shipped SpecFlags FlagsFacts ConfigFacts FlagsMain SpecWire SarFacts Timestamp SpecTime TimeMain Holes Data SpecFrames FrameFacts BuildFacts DataMain Status SpecStatus StatusMain Request SpecRequest RequestMain Beacon SpecBeacon BeaconMain Peers SpecPeers PeersMain Fileio Dirent SpecDirent DirentMain Metadata SpecMetadata MetadataMain Trans Listen SpecListen ListenMain Sarnet Transmit SpecTransmit TransmitMain.
Local Open Scope string_scope.
Local Open Scope N_scope.

(** C115: Send writes the encoded frame, whole, once, to the address given (a beacon:
    along the connection), and nothing if there is none; it returns nil exactly when
    the system took all of it, and the encoder's or the system's error as it is. *)
Theorem C115_send : forall f sk to,
  match frame_encode f with
  | Ret (Frame buf) => exists e, frame_send f sk to = Ret {| sd_wire := [(goes_to f to, buf)]; sd_err := e |} /\
      (e = None <-> took_all sk (goes_to f to) buf) /\ (forall x, sk_write sk (goes_to f to) buf = Refused x -> e = Some x)
  | Ret (EncErr e) => frame_send f sk to = Ret {| sd_wire := []; sd_err := Some e |}
  | Panic => frame_send f sk to = Panic
  | Fatal => frame_send f sk to = Fatal
  end.
Proof. exact c115_send. Qed.
Print Assumptions C115_send.

(** C115: when only part of a frame is taken the error says how much, where to and out
    of how much. *)
Theorem C115_short : forall f sk to buf n, frame_encode f = Ret (Frame buf) ->
  sk_write sk (goes_to f to) buf = Took n -> n <> List.length buf ->
  exists kind, frame_send f sk to = Ret {| sd_wire := [(goes_to f to, buf)];
    sd_err := Some (kind ++ " sent (" ++ itoa (N.of_nat n) ++ ") to " ++
                    udpaddr_string (match f with FBeacon _ => sk_remote sk | _ => to end) ++
                    " != frame size (" ++ itoa (N.of_nat (List.length buf)) ++ ")") |} /\
    kind = match f with FBeacon _ => "Beacon" | FRequest _ => "Request" | FMetadata _ => "MetaData" | FData _ => "Data" | FStatus _ => "status" end.
Proof. exact c115_short. Qed.
Print Assumptions C115_short.

(** C116: every well-formed frame has a wire form; Send writes exactly that, and a
    listener whose MTU it fits hands on the very frame, with the address it came from. *)
Theorem C116_arrives : forall f, well_formed f -> exists buf, frame_wire f = Some buf /\
  (forall sk to, exists e, frame_send f sk to = Ret {| sd_wire := [(goes_to f to, buf)]; sd_err := e |} /\
                           (e = None <-> took_all sk (goes_to f to) buf)) /\
  (forall now mtu from, fits_mtu mtu buf -> listen_one now mtu buf from = Ret (ToRx {| pk_addr := from; pk_info := f |})).
Proof. exact c116_arrives. Qed.
Print Assumptions C116_arrives.

(** C116: two different frames never have the same wire form. *)
Theorem C116_distinct : forall f g buf, well_formed f -> well_formed g ->
  frame_wire f = Some buf -> frame_wire g = Some buf -> (8 <= List.length buf)%nat -> f = g.
Proof. exact c116_distinct. Qed.
Print Assumptions C116_distinct.

(** C117 (defect): Send knows nothing of the listener's limit: a frame of more than the
    MTU less 60 bytes is written and reported as sent, and every listener drops it. *)
Theorem C117_too_long : forall f buf sk to now mtu from, frame_encode f = Ret (Frame buf) -> took_all sk (goes_to f to) buf ->
  (mtu - 60 < Z.of_nat (List.length buf))%Z ->
  frame_send f sk to = Ret {| sd_wire := [(goes_to f to, buf)]; sd_err := None |} /\ listen_one now mtu buf from = Ret Dropped.
Proof. exact c117_too_long. Qed.
Print Assumptions C117_too_long.

(** C117 (defect): metadata whose entry has no wire form (a file of 4 GiB or more, a path of
    more than 1024 bytes) is sent without it, and reported as sent; a listener answers
    that the packet is bad. *)
Theorem C117_entry : forall m sk to, header_of 2 (m_header m) -> m_session m < 2 ^ 32 ->
  List.length (m_checksum m) = csum_bytes (m_header m) -> ~ entry_sendable (m_dir m) ->
  exists buf, buf = (wire 4 (m_header m) ++ wire 4 (m_session m) ++ m_checksum m)%list /\
    (took_all sk (Some to) buf -> frame_send (FMetadata m) sk to = Ret {| sd_wire := [(Some to, buf)]; sd_err := None |}) /\
    forall now mtu from, fits_mtu mtu buf -> exists st,
      listen_one now mtu buf from = Ret (ToTx {| pk_addr := from; pk_info := FStatus st |}) /\
      error_status st (bad_settings (desc_name (hd_descriptor (m_header m)))) (m_session m) 0.
Proof. exact c117_entry. Qed.
Print Assumptions C117_entry.

(** C117 (defect): a data frame with a timestamp, a 16-bit offset and no payload is sent, and a
    listener answers that the packet is bad. *)
Theorem C117_empty : forall d sk to, header_of 3 (d_header d) -> d_session d < 2 ^ 32 ->
  hd_reqtstamp (d_header d) = 1 -> proper_stamp (d_tstamp d) -> hd_descriptor (d_header d) = 0 -> d_offset d < 2 ^ 16 -> d_payload d = [] ->
  exists buf, frame_wire (FData d) = Some buf /\
    (took_all sk (Some to) buf -> frame_send (FData d) sk to = Ret {| sd_wire := [(Some to, buf)]; sd_err := None |}) /\
    forall now mtu from, fits_mtu mtu buf -> exists st,
      listen_one now mtu buf from = Ret (ToTx {| pk_addr := from; pk_info := FStatus st |}) /\
      error_status st (bad_settings "d16") (d_session d) (d_offset d).
Proof. exact c117_empty. Qed.
Print Assumptions C117_empty.

(** C117 (defect): a status that announces a timestamp is sent, and whatever a listener
    makes of it, it is never a status with the same progress, in-response-to and holes. *)
Theorem C117_status : forall s sk to buf, header_of 4 (s_header s) -> hd_reqtstamp (s_header s) = 1 ->
  status_encode s = Ret (Frame buf) ->
  (took_all sk (Some to) buf -> frame_send (FStatus s) sk to = Ret {| sd_wire := [(Some to, buf)]; sd_err := None |}) /\
  forall now mtu from s', listen_one now mtu buf from = Ret (ToRx {| pk_addr := from; pk_info := FStatus s' |}) ->
    ~ (s_progress s' = s_progress s /\ s_inrespto s' = s_inrespto s /\ s_holes s' = s_holes s).
Proof. exact c117_status. Qed.
Print Assumptions C117_status.
Example C115_send_ex : exists sd, frame_send ex_req ex_sock ex_to = Ret sd /\ sd_err sd = None /\ List.length (sd_wire sd) = 1%nat.
Proof. exact c115_send_ex. Qed.
Example C115_short_ex : frame_send ex_req {| sk_write := fun _ b => Took 3; sk_remote := ex_to |} ex_to =
  Ret {| sd_wire := [(Some ex_to, request_wire 0x210F0001 7 "a.txt" ["k"%char])]; sd_err := Some "Request sent (3) to 10.0.0.2:7542 != frame size (15)" |}.
Proof. exact c115_short_ex. Qed.
Example C116_arrives_ex : well_formed ex_req /\ exists buf, frame_wire ex_req = Some buf /\
  listen_one ex_now 1500 buf ex_to = Ret (ToRx {| pk_addr := ex_to; pk_info := ex_req |}).
Proof. exact c116_arrives_ex. Qed.
Example C117_entry_ex : header_of 2 (m_header ex_huge) /\ List.length (m_checksum ex_huge) = csum_bytes (m_header ex_huge) /\
  ~ entry_sendable (m_dir ex_huge) /\
  (exists sd, frame_send (FMetadata ex_huge) ex_sock ex_to = Ret sd /\ sd_err sd = None) /\
  (exists st, listen_one ex_now 1500 (wire 4 0x22000000 ++ wire 4 9)%list ex_to = Ret (ToTx {| pk_addr := ex_to; pk_info := FStatus st |})).
Proof. exact c117_entry_ex. Qed.
Example C117_empty_ex : header_of 3 (d_header ex_dot) /\ hd_reqtstamp (d_header ex_dot) = 1 /\ proper_stamp (d_tstamp ex_dot) /\
  hd_descriptor (d_header ex_dot) = 0 /\ (exists sd, frame_send (FData ex_dot) ex_sock ex_to = Ret sd /\ sd_err sd = None).
Proof. exact c117_empty_ex. Qed.
Example C117_status_ex : header_of 4 (s_header ex_stamped) /\ hd_reqtstamp (s_header ex_stamped) = 1 /\
  (exists sd, frame_send (FStatus ex_stamped) ex_sock ex_to = Ret sd /\ sd_err sd = None).
Proof. exact c117_status_ex. Qed.
Example C117_too_long_ex : exists f buf, frame_encode f = Ret (Frame buf) /\ took_all ex_sock (goes_to f ex_to) buf /\ (100 - 60 < Z.of_nat (List.length buf))%Z.
Proof. exact c117_too_long_ex. Qed.
