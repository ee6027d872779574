(** * FrameText: the properties

    Statements only; the proofs are in FrameTextMain.v. *)
From Verif Require Import GoBase GoFacts Flags Config Shipped Timestamp Holes Data Status Request Beacon Fileio Dirent Metadata Trans Listen Daemon Sarnet Words Clock Table Screen SpecTime TimeMain DataMain SpecStatus StatusMain SpecRequest SpecBeacon Peers SpecPeers SpecMetadata SpecListen ListenMain TransMain SpecScreen ScreenMain FrameText SarnetMain FlagsFacts FlagStrFacts FrameFacts BuildFacts SpecWire SpecFrames SpecDirent SpecWords SpecFrameText SpecFlags WordsFacts TextFacts ConfigFacts FlagsMain SarFacts DirentMain TransferMain ClockMain FrameTextFacts FrameTextMain.
Local Open Scope string_scope.
Local Open Scope N_scope.

(** C112: the short text of a frame says exactly what [says] lists for its kind,
    and there is one exactly when every named value in it has a name. *)
Theorem C112_short : forall f text, frame_shortprint f = Ret text <-> writes (says f) text.
Proof. exact c112_short. Qed.
Print Assumptions C112_short.

(** C112: a request has no long text: asking for it ends the program (defect). *)
Theorem C112_request : forall r, frame_print (FRequest r) = Fatal.
Proof. exact c112_request. Qed.
Print Assumptions C112_request.

(** C112: the other long texts say exactly what the lists named [..._tells] have. *)
Theorem C112_long : forall f text, frame_print f = Ret text <->
  match f with
  | FBeacon b => writes (beacon_tells b) text
  | FData d => writes (data_tells d) text
  | FStatus s => writes (status_tells s) text
  | FMetadata m => writes (meta_tells m) text
  | FRequest _ => False
  end.
Proof. exact c112_long. Qed.
Print Assumptions C112_long.

(** C112: main survives a frame to send exactly if the frame has a text. *)
Theorem C112_sent : forall p, main_tx p = Ret tt <-> exists text, frame_shortprint (pk_info p) = Ret text.
Proof. exact c112_sent. Qed.
Print Assumptions C112_sent.

(** C112: a frame a listener hands on has a text unless it is metadata with a kind of checksum
    that has no name. *)
Theorem C112_received : forall now mtu dgram from p, listen_one now mtu dgram from = Ret (ToRx p) ->
  ((exists text, frame_shortprint (pk_info p) = Ret text) <-> (forall m, pk_info p = FMetadata m -> hd_csumtype (m_header m) <= 3)).
Proof. exact c112_received. Qed.
Print Assumptions C112_received.

(** C113: two frames have the same text exactly if they are of the same kind and agree in
    everything the text shows. *)
Theorem C113_same : forall f g text, clear_times f -> clear_times g -> frame_shortprint f = Ret text -> (frame_shortprint g = Ret text <-> same_shown f g).
Proof. exact c113_same. Qed.
Print Assumptions C113_same.

(** C113: the long text of a status tells everything a status holds. *)
Theorem C113_status : forall s q text, clear_times (FStatus s) -> clear_times (FStatus q) -> status_print s = Ret text -> (status_print q = Ret text <-> same_status s q).
Proof. exact c113_status. Qed.
Print Assumptions C113_status.

(** C113: the frames the listeners hand on are of that kind. *)
Theorem C113_heard : forall now mtu dgram from p, listen_one now mtu dgram from = Ret (ToRx p) -> clear_times (pk_info p).
Proof. exact c113_heard. Qed.
Print Assumptions C113_heard.

(** C114: a beacon can look like any number of packets: whatever packets follow in the window, the
    same is shown if some bytes are added to the beacon and nothing else is received (defect). *)
Theorem C114_forged : forall now mtu dgram from b fam frames shown,
  listen_one now mtu dgram from = Ret (ToRx {| pk_addr := from; pk_info := FBeacon b |}) ->
  Forall2 (fun f ls => rx_prints fam f = Ret ls) (FBeacon b :: frames) shown ->
  exists extra b' ls,
    (forall now' mtu', (Z.of_nat (List.length dgram + List.length extra) <= mtu' - 60)%Z ->
      listen_one now' mtu' (dgram ++ extra) from = Ret (ToRx {| pk_addr := from; pk_info := FBeacon b' |})) /\
    rx_prints fam (FBeacon b') = Ret ls /\
    shown_in VPacket ls = String.concat "" (map (shown_in VPacket) shown).
Proof. exact c114_forged. Qed.
Print Assumptions C114_forged.

(** C112: what is written into the windows when main receives a frame to handle. *)
Theorem C112_shown : forall fam f ls, rx_prints fam f = Ret ls -> exists text, writes (says f) text /\
  shown_in VPacket ls = painted true "white_black" ("Rx" ++ text) /\
  shown_in VMsg ls = match f with FBeacon _ => "" | _ =>
    painted true "white_black" ("Received " ++ match fam with V4 => "v4" | V6 => "v6" end ++ " Saratoga " ++
      match f with FBeacon _ => "BEACON" | FRequest _ => "REQUEST" | FMetadata _ => "METADATA" | FData _ => "DATA" | FStatus _ => "STATUS" end ++ " Frame") end /\
  shown_in VErr ls = "" /\ shown_in VCmd ls = "".
Proof. exact c112_shown. Qed.
Print Assumptions C112_shown.

(** C112: and when main receives one to send, or a listener a status. *)
Theorem C112_shown_others : forall fam f ls, tx_prints fam f = Ret ls -> exists text, writes (says f) text /\
  shown_in VMsg ls = painted true "blue_black" ("Need to send " ++ match fam with V4 => "v4" | V6 => "v6" end ++ " Saratoga " ++
      match f with FBeacon _ => "BEACON" | FRequest _ => "REQUEST" | FMetadata _ => "METADATA" | FData _ => "DATA" | FStatus _ => "STATUS" end ++ " Frame") ++
    painted true "blue_black" text /\
  shown_in VPacket ls = "" /\ shown_in VErr ls = "" /\ shown_in VCmd ls = "".
Proof. exact c112_shown_others. Qed.
Print Assumptions C112_shown_others.
Theorem C112_shown_status : forall s ls, listener_prints s = Ret ls -> exists short long, writes (status_says s) short /\ writes (status_tells s) long /\
  shown_in VPacket ls = painted true "green_black" ("Listen Rx " ++ short) /\
  shown_in VMsg ls = painted true "white_black" ("Decoded status " ++ long) /\ shown_in VErr ls = "" /\ shown_in VCmd ls = "".
Proof. exact c112_shown_status. Qed.
Print Assumptions C112_shown_status.

(** C114: the text of a request does not tell where the name of the file ends (defect). *)
Theorem C114_request : forall h s a b c, let mark := String (ascii_of_N 10) "  auth:" in
  frame_shortprint (FRequest {| r_header := h; r_session := s; r_fname := a ++ mark ++ b; r_auth := bytes_of c |}) =
  frame_shortprint (FRequest {| r_header := h; r_session := s; r_fname := a; r_auth := bytes_of (b ++ mark ++ c) |}).
Proof. exact c114_request. Qed.
Print Assumptions C114_request.
Example C112_short_ex : frame_shortprint (FStatus ex_st) =
  Ret ("Status: 0x24000001" ++ newline ++ "  session:7" ++ newline ++ "  errcode:unspecified" ++ newline ++ "  progress:10" ++ newline ++ "  inrespto:12" ++ newline ++ "  numb holes:2").
Proof. exact c112_short_ex. Qed.
Example C112_long_ex : exists text, frame_print (FStatus ex_st) = Ret text /\ writes (status_tells ex_st) text.
Proof. exact c112_long_ex. Qed.
Example C112_request_ex : frame_shortprint (FRequest ex_req) = Ret ("Request: 0x21004000" ++ newline ++ "  session:7" ++ newline ++ "  filename:a.txt" ++ newline ++ "  auth:").
Proof. exact c112_request_ex. Qed.
Example C112_sent_ex : main_tx {| pk_addr := ListenMain.ex_from; pk_info := FStatus ex_st |} = Ret tt /\
  main_tx {| pk_addr := ListenMain.ex_from; pk_info := FStatus {| s_header := 0x240000ff; s_session := 7; s_tstamp := zero_timestamp; s_progress := 10; s_inrespto := 12; s_holes := [] |} |} = Fatal.
Proof. exact c112_sent_ex. Qed.
Example C112_received_ex : exists p, listen_one ex_now 1500 ex_beacon_dgram ex_from = Ret (ToRx p) /\
  frame_shortprint (pk_info p) = Ret ("Beacon: 0x20000000" ++ newline ++ "  EID:eid!").
Proof. exact c112_received_ex. Qed.
Example C113_same_ex : same_shown (FData {| d_header := 0x23000000; d_session := 1; d_tstamp := zero_timestamp; d_offset := 5; d_payload := bytes_of "abc" |})
                                  (FData {| d_header := 0x23000000; d_session := 1; d_tstamp := zero_timestamp; d_offset := 5; d_payload := bytes_of "xyz" |}) /\
  ~ same_shown (FStatus ex_st) (FStatus {| s_header := 0x24000001; s_session := 7; s_tstamp := zero_timestamp; s_progress := 10; s_inrespto := 13; s_holes := s_holes ex_st |}).
Proof. exact c113_same_ex. Qed.
Example C113_status_ex : clear_times (FStatus ex_st) /\ exists text, status_print ex_st = Ret text.
Proof. exact c113_status_ex. Qed.
Example C113_heard_ex : exists p, listen_one ex_now 1500 (ex_meta_dgram 0x22000003) ex_from = Ret (ToRx p) /\ clear_times (pk_info p).
Proof. exact c113_heard_ex. Qed.

(** One beacon for a beacon and a request nobody made *)
Example C114_forged_ex : exists extra p ls, listen_one ex_now 1500 (ex_beacon_dgram ++ extra) ex_from = Ret (ToRx p) /\ rx_prints V4 (pk_info p) = Ret ls /\
  shown_in VPacket ls = rx_line ("Beacon: 0x20000000" ++ newline ++ "  EID:eid!") ++ rx_line ("Request: 0x21004000" ++ newline ++ "  session:7" ++ newline ++ "  filename:a.txt" ++ newline ++ "  auth:").
Proof. exact c114_forged_ex. Qed.
Example C114_request_ex : frame_shortprint (FRequest {| r_header := 0x21004000; r_session := 7; r_fname := "a" ++ newline ++ "  auth:me"; r_auth := [] |}) =
  frame_shortprint (FRequest {| r_header := 0x21004000; r_session := 7; r_fname := "a"; r_auth := bytes_of ("me" ++ newline ++ "  auth:") |}).
Proof. exact c114_request_ex. Qed.
Example C112_shown_ex : exists ls, rx_prints V6 (FRequest ex_req) = Ret ls /\ tx_prints V4 (FStatus ex_st) <> Fatal /\ exists l, listener_prints ex_st = Ret l.
Proof. exact c112_shown_ex. Qed.
