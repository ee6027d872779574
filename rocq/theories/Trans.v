(** * Model of trans/trans.go: handling a received request *)

From Verif Require Import GoBase Flags Config Shipped Timestamp Holes Data Status Request Beacon Fileio Dirent Metadata.
Local Open Scope string_scope.
Local Open Scope N_scope.

(** net.UDPAddr: the textual IP address (IP.String()), port and zone (trans/trans.go:50, beacon/beacon.go:344) *)
Record udpaddr := { ua_ip : string; ua_port : N; ua_zone : string }.

(** trans.go:19-39 Transfer.  Rxwilling, Txwilling, Stflags, Checksum, Havemeta,
    Dir, Fp, Data, Dcount, Progress, Inrespto and CurFills have their zero values in
    every transfer that AddRxTran makes (lines 214-220) and are left out. *)
Record rtran := {
  rt_peer : udpaddr;
  rt_session : N;
  rt_ttype : string;
  rt_fname : string;
  rt_timetype : string;
  rt_tstamp : timestamp;
  rt_csumtype : string
}.

(** What a call of AddRxTran has done when it reaches the send [tx <- st.Val(from)],
    or its return if it does not send: the answer to be sent (with the address it is
    for), the file system, the table Transfers, and the value it will return after the send.
    Nothing happens between a send and the return. (trans/trans.go:50-233) *)
Record reply := {
  rp_answer : option (udpaddr * status);
  rp_fs : fsys;
  rp_transfers : list rtran;
  rp_ret : bool
}.

(** trans.go:55 *)
Definition no_info : sinfo := {| si_session := 0; si_progress := 0; si_inrespto := 0; si_holes := [] |}.

(** trans.go:58-63 and its ten copies: a status with this error code, then return
    [ret]; false without an answer when the status cannot be built *)
Definition answer (now : gotime) (code : string) (from : udpaddr) (fs : fsys) (trs : list rtran) (ret : bool) : outcome reply :=
  do ' (st, e) <- status_new now zero_status ("errcode=" ++ code) no_info;
  match e with
  | Some _ => Ret {| rp_answer := None; rp_fs := fs; rp_transfers := trs; rp_ret := false |}
  | None => Ret {| rp_answer := Some (from, st); rp_fs := fs; rp_transfers := trs; rp_ret := ret |}
  end.

(** trans.go:50-233 AddRxTran.  [field] is the flag name of line 51 and [timetype] the
    timestamp type of line 206; the code is the instance below.  [now], [cwd] and [sardir]
    are what the system provides; messages to the windows are not modelled. *)
Definition add_rx_tran_gen (field timetype : string) (now : gotime) (cwd : path) (sardir : string)
    (fs : fsys) (trs : list rtran) (r : request) (from : udpaddr) : outcome reply :=
  do ttype <- sf_getstr sar (r_header r) field;
  do version <- sf_getstr sar (r_header r) "version";
  if negb (String.eqb version "v1") then answer now "badrequest" from fs trs false
  else
    do udplite <- sf_getstr sar (r_header r) "udplite";
    if negb (String.eqb udplite "no") then answer now "badrequest" from fs trs false
    else
      do stream <- sf_getstr sar (r_header r) "stream";
      if negb (String.eqb stream "no") then answer now "badrequest" from fs trs false
      else
        do rxwilling <- sf_getstr sar (r_header r) "rxwilling";
        if String.eqb rxwilling "invalid" then answer now "cantreceive" from fs trs false
        else
          do txwilling <- sf_getstr sar (r_header r) "txwilling";
          if String.eqb txwilling "invalid" then answer now "cantsend" from fs trs false
          else
            let exists_ := file_exists fs cwd sardir (r_fname r) in
            (* lines 206-232 *)
            let accept :=
              do ' (ts, _) <- ts_now now zero_timestamp timetype;
              let t := {| rt_peer := from; rt_session := r_session r; rt_ttype := ttype; rt_fname := r_fname r;
                          rt_timetype := timetype; rt_tstamp := ts; rt_csumtype := "none" |} in
              answer now "success" from fs (trs ++ [t])%list true in
            if one_of ttype ["get"; "getdir"; "take"] then
              if negb (String.eqb rxwilling "yes") then answer now "cantreceive" from fs trs false
              else if negb exists_ then answer now "filenotfound" from fs trs false
              else accept
            else if String.eqb ttype "delete" then
              if negb exists_ then answer now "filenotfound" from fs trs false
              else match file_rm fs cwd sardir (r_fname r) with
                   | inr _ => answer now "didnotdelete" from fs trs false
                   | inl fs' => answer now "success" from fs' trs true
                   end
            else if one_of ttype ["put"; "give"] then
              if negb (String.eqb txwilling "yes") then answer now "cantsend" from fs trs false
              else if exists_ then answer now "fileinuse" from fs trs false
              else accept
            else answer now "badrequest" from fs trs false.

(** trans.go:50-233 AddRxTran as it is: lines 51 and 206 *)
Definition add_rx_tran := add_rx_tran_gen "request" "epoch_2000_32".
