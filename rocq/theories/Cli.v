(** * Model of sarwin/sarwin.go: the command line *)

From Verif Require Import GoBase Flags Config Shipped Timestamp Data Beacon Fileio Trans Sarnet Transfer Words.
Local Open Scope string_scope.
Local Open Scope N_scope.

(** ** What is shown *)

(** sarwin/sarwin.go:125-162: the windows that texts are printed to (msg, err, packet) *)
Inductive window := WMsg | WErr | WPacket.
(** The colour of a text is not modelled.  [Rows]: the table Info shows, one row per
    transfer (type, peer, file) in table order; transfers_text (Table.v) is its text.
    [Peers]: the table of the peers command; peers_text (Table.v) is its text.
    sarwin/sarwin.go:125-162 MsgPrintln, ErrPrintln, PacketPrintln, 106-119 Clearwin, 1089-1134 Info. *)
Inductive shown :=
| Text (w : window) (s : string)
| Rows (rows : list (string * string * string))
| Peers (peers : list peer)
| Cleared (w : window).

(** sarwin.go:664-671 prhelp, 674-681 prusage; Commands is filled from saratoga.json *)
Definition prhelp (c : string) : string :=
  match lookup c sar_commands with Some t => c ++ ":" ++ c_help t | None => "Invalid Command" end.
(** sarwin/sarwin.go:674-681 prusage *)
Definition prusage (c : string) : string :=
  match lookup c sar_commands with Some t => "usage:" ++ c_usage t | None => "Invalid Command" end.
(** sarwin/sarwin.go:130-132 MsgPrintln *)
Definition msg (s : string) : shown := Text WMsg s.
(** sarwin/sarwin.go:150-152 ErrPrintln *)
Definition err (s : string) : shown := Text WErr s.
(** What a command does with "?" (e.g. sarwin/sarwin.go:1380-1383): MsgPrintln of prhelp and of prusage *)
Definition help_of (c : string) : list shown := [msg (prhelp c); msg (prusage c)].

(** ** The settings: commands that hold Climu while they run *)

(** Cliflag.Global[k] and Cliflag.Global[k] = v
    (sarflags/sarflags.go:271-285 type Cliflags, used in sarwin/sarwin.go:1372-2434) *)
Definition global (c : cliflags) (k : string) : string := match lookup k (cl_global c) with Some v => v | None => "" end.
(** Cliflag.Global[k] = v (e.g. sarwin/sarwin.go:1386) *)
Definition set_global (c : cliflags) (k v : string) : cliflags :=
  {| cl_global := update k v (cl_global c); cl_v4 := cl_v4 c; cl_v6 := cl_v6 c; cl_port := cl_port c;
     cl_timestamp := cl_timestamp c; cl_timeout := cl_timeout c; cl_timezone := cl_timezone c; cl_prompt := cl_prompt c;
     cl_ppad := cl_ppad c; cl_sardir := cl_sardir c; cl_buffersize := cl_buffersize c; cl_bcount := cl_bcount c |}.
(** Cliflag.Timestamp = v (sarwin/sarwin.go:2313-2354) *)
Definition set_timestamp (c : cliflags) (v : string) : cliflags :=
  {| cl_global := cl_global c; cl_v4 := cl_v4 c; cl_v6 := cl_v6 c; cl_port := cl_port c;
     cl_timestamp := v; cl_timeout := cl_timeout c; cl_timezone := cl_timezone c; cl_prompt := cl_prompt c;
     cl_ppad := cl_ppad c; cl_sardir := cl_sardir c; cl_buffersize := cl_buffersize c; cl_bcount := cl_bcount c |}.
(** Cliflag.Timezone = v (sarwin/sarwin.go:2357-2380) *)
Definition set_timezone (c : cliflags) (v : string) : cliflags :=
  {| cl_global := cl_global c; cl_v4 := cl_v4 c; cl_v6 := cl_v6 c; cl_port := cl_port c;
     cl_timestamp := cl_timestamp c; cl_timeout := cl_timeout c; cl_timezone := v; cl_prompt := cl_prompt c;
     cl_ppad := cl_ppad c; cl_sardir := cl_sardir c; cl_buffersize := cl_buffersize c; cl_bcount := cl_bcount c |}.
(** An assignment to a member of Cliflag.Timeout (sarwin/sarwin.go:1722-1752, 2169-2310) *)
Definition set_timeout (c : cliflags) (t : timeouts) : cliflags :=
  {| cl_global := cl_global c; cl_v4 := cl_v4 c; cl_v6 := cl_v6 c; cl_port := cl_port c;
     cl_timestamp := cl_timestamp c; cl_timeout := t; cl_timezone := cl_timezone c; cl_prompt := cl_prompt c;
     cl_ppad := cl_ppad c; cl_sardir := cl_sardir c; cl_buffersize := cl_buffersize c; cl_bcount := cl_bcount c |}.
(** Cliflag.Bcount = n (sarwin/sarwin.go:1697-1719) *)
Definition set_bcount (c : cliflags) (n : N) : cliflags :=
  {| cl_global := cl_global c; cl_v4 := cl_v4 c; cl_v6 := cl_v6 c; cl_port := cl_port c;
     cl_timestamp := cl_timestamp c; cl_timeout := cl_timeout c; cl_timezone := cl_timezone c; cl_prompt := cl_prompt c;
     cl_ppad := cl_ppad c; cl_sardir := cl_sardir c; cl_buffersize := cl_buffersize c; cl_bcount := n |}.

(** The result of a command on the settings (sarwin/sarwin.go:1372-2434): the new settings, what it shows *)
Definition setting := (cliflags * list shown)%type.

(** sarwin.go:1372-1403 cmdChecksum *)
Definition cmd_checksum (c : cliflags) (args : list string) : setting :=
  let done c := (c, [msg ("Checksum " ++ global c "csumtype")]) in
  match args with
  | [_] => done c
  | [_; a] =>
      if String.eqb a "?" then (c, help_of "checksum")
      else if one_of a ["off"; "none"] then done (set_global c "csumtype" "none")
      else if String.eqb a "crc32" then done (set_global c "csumtype" "crc32")
      else if String.eqb a "md5" then done (set_global c "csumtype" "md5")
      else if String.eqb a "sha1" then done (set_global c "csumtype" "sha1")
      else (c, [err (prusage "checksum")])
  | _ => (c, [err (prusage "checksum"); err (prusage "checksum")])
  end.

(** sarwin.go:1441-1499 cmdDescriptor, with uint of 64 bits *)
Definition cmd_descriptor (c : cliflags) (args : list string) : setting :=
  let size c := msg ("Descriptor size is " ++ global c "descriptor") in
  match args with
  | [_] => (c, [msg ("Descriptor " ++ global c "descriptor")])
  | [_; a] =>
      if String.eqb a "?" then (c, help_of "descriptor")
      else if String.eqb a "auto" then let c := set_global c "descriptor" "d64" in (c, [size c])
      else if String.eqb a "d16" then let c := set_global c "descriptor" "d16" in (c, [size c])
      else if String.eqb a "d32" then let c := set_global c "descriptor" "d32" in (c, [size c])
      else if String.eqb a "d64" then let c := set_global c "descriptor" "d64" in (c, [size c])
      else if String.eqb a "d128" then (c, [msg "128 bit descriptors not supported on this platform"; size c])
      else (c, [err ("usage:" ++ prusage "descriptor"); size c])
  | _ => (c, [err ("usage:" ++ prusage "descriptor")])
  end.

(** sarwin.go:1546-1575 cmdFreespace *)
Definition cmd_freespace (c : cliflags) (args : list string) : setting :=
  let usage := (c, [err ("usage:" ++ prusage "freespace")]) in
  match args with
  | [_] => (c, [msg (if String.eqb (global c "freespace") "yes" then "Free space is advertised" else "Free space is not advertised")])
  | [_; a] =>
      if String.eqb a "?" then (c, help_of "freespace")
      else if String.eqb a "yes" then (set_global c "freespace" "yes", [msg "freespace is advertised"])
      else if String.eqb a "no" then (set_global c "freespace" "no", [msg "freespace is not advertised"])
      else usage
  | _ => usage
  end.

(** sarwin.go:1697-1720 cmdBcount *)
Definition cmd_bcount (c : cliflags) (args : list string) : setting :=
  match args with
  | [_] => (c, [msg (itoa (cl_bcount c) ++ " Beacons to be sent")])
  | [_; a] =>
      if String.eqb a "?" then (c, help_of "bcount")
      else match atoi a with
           | Some n => if (0 <=? n)%Z then (set_bcount c (Z.to_N n), [])
                       else (c, [err (prusage "bcount"); err (prusage "bcount")])
           | None => (c, [err (prusage "bcount"); err (prusage "bcount")])
           end
  | _ => (c, [err (prusage "bcount")])
  end.

(** Cliflag.Timeout.Binterval = n (sarwin/sarwin.go:1722-1752) *)
Definition with_binterval (t : timeouts) (n : N) : timeouts :=
  Build_timeouts (to_metadata t) (to_request t) (to_status t) (to_transfer t) n (to_datacounter t).
(** sarwin.go:1722-1753 cmdInterval *)
Definition cmd_interval (c : cliflags) (args : list string) : setting :=
  match args with
  | [_] => (c, [msg (if to_binterval (cl_timeout c) =? 0 then "Single Beacon Interation"
                     else "Beacons sent every " ++ itoa (to_binterval (cl_timeout c)) ++ " seconds")])
  | [_; a] =>
      if String.eqb a "?" then (c, help_of "interval")
      else if String.eqb a "off" then (set_timeout c (with_binterval (cl_timeout c) 0), [])
      else match atoi a with
           | Some n => if (0 <=? n)%Z then (set_timeout c (with_binterval (cl_timeout c) (Z.to_N n)), [])
                       else (c, [err (prusage "interval"); err (prusage "interval")])
           | None => (c, [err (prusage "interval"); err (prusage "interval")])
           end
  | _ => (c, [err (prusage "interval")])
  end.

(** sarwin.go:2009-2036 cmdReqtstamp *)
Definition cmd_reqtstamp (c : cliflags) (args : list string) : setting :=
  let usage := (c, [err ("usage:" ++ prusage "reqtstamp")]) in
  match args with
  | [_] => (c, [msg (if String.eqb (global c "reqtstamp") "yes" then "Time stamps requested" else "Time stamps not requested")])
  | [_; a] =>
      if String.eqb a "?" then (c, help_of "reqtstamp")
      else if String.eqb a "yes" then (set_global c "reqtstamp" "yes", [])
      else if String.eqb a "no" then (set_global c "reqtstamp" "no", [])
      else usage
  | _ => usage
  end.

(** sarwin.go:2109-2135 cmdRxwilling *)
Definition cmd_rxwilling (c : cliflags) (args : list string) : setting :=
  let usage := (c, [err (prusage "rxwilling")]) in
  match args with
  | [_] => (c, [msg ("Receive Files:" ++ global c "rxwilling")])
  | [_; a] =>
      if String.eqb a "?" then (c, help_of "rxwilling")
      else if String.eqb a "on" then (set_global c "rxwilling" "yes", [])
      else if String.eqb a "off" then (set_global c "rxwilling" "no", [])
      else if String.eqb a "capable" then (set_global c "rxwilling" "capable", [])
      else usage
  | _ => usage
  end.

(** sarwin.go:2139-2166 cmdStream *)
Definition cmd_stream (c : cliflags) (args : list string) : setting :=
  let usage := (c, [err (prusage "stream")]) in
  match args with
  | [_] => (c, [msg (if String.eqb (global c "stream") "yes" then "Can stream" else "Cannot stream")])
  | [_; a] =>
      if String.eqb a "?" then (c, help_of "stream")
      else if String.eqb a "yes" then (set_global c "stream" "yes", [])
      else if String.eqb a "no" then (set_global c "stream" "no", [])
      else usage
  | _ => usage
  end.

(** Cliflag.Timeout.Metadata = n (sarwin/sarwin.go:2169-2310) *)
Definition with_metadata (t : timeouts) (n : Z) : timeouts :=
  Build_timeouts n (to_request t) (to_status t) (to_transfer t) (to_binterval t) (to_datacounter t).
(** Cliflag.Timeout.Request = n (sarwin/sarwin.go:2169-2310) *)
Definition with_request (t : timeouts) (n : Z) : timeouts :=
  Build_timeouts (to_metadata t) n (to_status t) (to_transfer t) (to_binterval t) (to_datacounter t).
(** Cliflag.Timeout.Status = n (sarwin/sarwin.go:2169-2310) *)
Definition with_status (t : timeouts) (n : Z) : timeouts :=
  Build_timeouts (to_metadata t) (to_request t) n (to_transfer t) (to_binterval t) (to_datacounter t).
(** Cliflag.Timeout.Transfer = n (sarwin/sarwin.go:2169-2310) *)
Definition with_transfer (t : timeouts) (n : Z) : timeouts :=
  Build_timeouts (to_metadata t) (to_request t) (to_status t) n (to_binterval t) (to_datacounter t).
(** Cliflag.Timeout.Datacounter = n (sarwin/sarwin.go:2169-2310) *)
Definition with_datacounter (t : timeouts) (n : Z) : timeouts :=
  Build_timeouts (to_metadata t) (to_request t) (to_status t) (to_transfer t) (to_binterval t) n.
(** sarwin/sarwin.go:2169-2310 cmdTimeout: how a timer is told *)
Definition say_timer (name : string) (n : Z) : shown :=
  msg (if (n =? 0)%Z then name ++ ":No Timeout" else name ++ ":" ++ zitoa n ++ " sec").
(** sarwin/sarwin.go:2169-2310 cmdTimeout: how the data counter is told when it is set *)
Definition say_counter (n : Z) : shown := msg ("datacounter:" ++ zitoa n ++ " frames").
(** sarwin.go:2169-2310 cmdTimeout *)
Definition cmd_timeout (c : cliflags) (args : list string) : setting :=
  let t := cl_timeout c in
  let usage := (c, [err (prusage "timeout")]) in
  match args with
  | [_] =>
      let counter := if (to_datacounter t =? 0)%Z then msg "Data Counter every 100 frames" else say_counter (to_datacounter t) in
      (if (to_datacounter t =? 0)%Z then set_timeout c (with_datacounter t 100) else c,
       [say_timer "metadata" (to_metadata t); say_timer "request" (to_request t); say_timer "status" (to_status t);
        counter; say_timer "transfer" (to_transfer t)])
  | [_; a] =>
      if String.eqb a "?" then (c, help_of "timeout")
      else if String.eqb a "request" then (c, [say_timer "request" (to_request t)])
      else if String.eqb a "metadata" then
        (c, [msg (if (to_request t =? 0)%Z then "metadata:No Timeout" else "metadata:" ++ zitoa (to_metadata t) ++ " sec")])
      else if String.eqb a "status" then (c, [say_timer "status" (to_status t)])
      else if String.eqb a "datacounter" then
        if (to_datacounter t =? 0)%Z then (set_timeout c (with_datacounter t 100), [msg "datacounter:Never"])
        else (c, [say_counter (to_datacounter t)])
      else if String.eqb a "transfer" then (c, [say_timer "transfer" (to_transfer t)])
      else usage
  | [_; a; v] =>
      match (match atoi v with Some n => if (0 <=? n)%Z then Some n else None | None => None end) with
      | Some n =>
          if String.eqb a "metadata" then (set_timeout c (with_metadata t n), [say_timer "metadata" n])
          else if String.eqb a "request" then (set_timeout c (with_request t n), [say_timer "request" n])
          else if String.eqb a "status" then (set_timeout c (with_status t n), [say_timer "status" n])
          else if String.eqb a "datacounter" then
            if (n =? 0)%Z then (set_timeout c (with_datacounter t 100), [msg "datacounter:Default set to every 100 frames"])
            else (set_timeout c (with_datacounter t n), [say_counter n])
          else if String.eqb a "transfer" then (set_timeout c (with_transfer t n), [say_timer "transfer" n])
          else usage
      | None =>
          if String.eqb v "off" then
            if String.eqb a "metadata" then (set_timeout c (with_metadata t 60), [say_timer "metadata" 60])
            else if String.eqb a "request" then (set_timeout c (with_request t 60), [say_timer "request" 60])
            else if String.eqb a "status" then (set_timeout c (with_status t 60), [say_timer "status" 60])
            else if String.eqb a "datacounter" then (set_timeout c (with_datacounter t 100), [say_counter 100])
            else if String.eqb a "transfer" then (set_timeout c (with_transfer t 60), [say_timer "transfer" 60])
            else (c, [])
          else usage
      end
  | _ => usage
  end.

(** sarwin.go:2313-2354 cmdTimestamp *)
Definition cmd_timestamp (c : cliflags) (args : list string) : setting :=
  let on v := (set_timestamp (set_global c "reqtstamp" "yes") v, []) in
  match args with
  | [_] => (c, [msg ("Timestamps are " ++ global c "reqtstamp" ++ " and " ++ cl_timestamp c)])
  | [_; a] =>
      if String.eqb a "?" then (c, help_of "timestamp")
      else if String.eqb a "off" then (set_global c "reqtstamp" "no", [])
      else if String.eqb a "32" then on "posix32"
      else if String.eqb a "32_32" then on "posix32_32"
      else if String.eqb a "64" then on "posix64"
      else if String.eqb a "64_32" then on "posix64_32"
      else if String.eqb a "32_y2k" then on "epoch2000_32"
      else if String.eqb a "local" then on "localinterp"
      else (c, [err (prusage "timestamp")])
  | _ => (c, [err (prusage "timestamp")])
  end.

(** sarwin.go:2357-2380 cmdTimezone *)
Definition cmd_timezone (c : cliflags) (args : list string) : setting :=
  match args with
  | [_] => (c, [msg ("Timezone:" ++ cl_timezone c)])
  | [_; a] =>
      if String.eqb a "?" then (c, help_of "timezone")
      else if String.eqb a "local" then (set_timezone c "local", [])
      else if String.eqb a "utc" then (set_timezone c "utc", [])
      else (c, [err (prusage "timezone")])
  | _ => (c, [err (prusage "timezone")])
  end.

(** sarwin.go:2408-2434 cmdTxwilling *)
Definition cmd_txwilling (c : cliflags) (args : list string) : setting :=
  let usage := (c, [err (prusage "txwilling")]) in
  match args with
  | [_] => (c, [msg ("Transmit Files:" ++ global c "txwilling")])
  | [_; a] =>
      if String.eqb a "?" then (c, help_of "txwilling")
      else if String.eqb a "on" then (set_global c "txwilling" "on", [])
      else if String.eqb a "off" then (set_global c "txwilling" "off", [])
      else if String.eqb a "capable" then (set_global c "txwilling" "capable", [])
      else usage
  | _ => usage
  end.

(** ** Commands that only show *)

(** fmt.Sprint of a []string (used by sarwin/sarwin.go:1368-1370 cmdCancel) *)
Definition sprint_list (l : list string) : string := "[" ++ String.concat " " l ++ "]".
(** sarwin.go:1368-1370 cmdCancel *)
Definition cmd_cancel (args : list string) : list shown := [msg (sprint_list args)].

(** sarwin/sarwin.go:1406-1438 cmdClear: the windows it knows by name *)
Definition window_of (s : string) : option window :=
  if String.eqb s "msg" then Some WMsg else if String.eqb s "err" then Some WErr
  else if String.eqb s "packet" then Some WPacket else None.
(** sarwin.go:1427-1437: the loop of cmdClear *)
Fixpoint clear_loop (args : list string) : list shown :=
  match args with
  | [] => []
  | a :: r =>
      match window_of a with
      | Some w => msg ("Cleared Window:" ++ a) :: Cleared w :: clear_loop r
      | None => [err (prusage "clear")]
      end
  end.
(** sarwin.go:1406-1438 cmdClear; Clearwin (106-121) is taken to succeed *)
Definition cmd_clear (args : list string) : list shown :=
  match args with
  | [_] => [msg "Cleared all windows"; Cleared WMsg; Cleared WErr; Cleared WPacket]
  | [_; a] =>
      if String.eqb a "?" then help_of "clear"
      else match window_of a with
           | Some w => [msg ("Cleared Window:" ++ a); Cleared w]
           | None => [err (prusage "clear")]
           end
  | _ => clear_loop (tl args)
  end.

(** sarwin.go:1504-1527 cmdExit: the new value of Cexit *)
Definition cmd_exit (cexit : Z) (args : list string) : Z * list shown :=
  match args with
  | [_] => (0%Z, [msg "Good Bye!"])
  | [_; a] =>
      if String.eqb a "?" then (cexit, help_of "exit")
      else if String.eqb a "0" then (0%Z, [msg "Good Bye!"])
      else if String.eqb a "1" then (1%Z, [msg "Good Bye!"])
      else (cexit, [err (prusage "exit")])
  | _ => (cexit, [err (prusage "exit")])
  end.

(** sarwin.go:1089-1130 Info *)
Definition info (table : list transfer) (ttype : string) : list shown :=
  let rows := filter (fun t => String.eqb ttype "" || String.eqb (tr_ttype t) ttype) table in
  match rows with
  | [] => [msg ("No " ++ ttype ++ " transfers currently in progress")]
  | _ => [Rows (map (fun t => (tr_ttype t, udpaddr_string (tr_peer t), tr_filename t)) rows)]
  end.
(** sarwin.go:1530-1543 cmdFiles *)
Definition cmd_files (table : list transfer) (args : list string) : list shown :=
  match args with
  | [_] => info table ""
  | [_; a] => if String.eqb a "?" then help_of "files" else [err (prusage "files")]
  | _ => [err (prusage "files")]
  end.
(** sarwin.go:850 Ttypes *)
Definition ttypes : list string := ["get"; "getrm"; "getdir"; "put"; "putblind"; "putrm"; "rm"; "rmdir"].
(** sarwin.go:2383-2405 cmdTran *)
Definition cmd_tran (table : list transfer) (args : list string) : list shown :=
  match args with
  | [_] => info table ""
  | [_; a] =>
      if String.eqb a "?" then help_of "tran"
      else if one_of a ttypes then info table a
      else [err (prusage "tran")]
  | _ => [err (prusage "tran")]
  end.

(** "\n" in sarwin/sarwin.go:1654-1694 cmdHelp, 2437-2453 cmdUsage *)
Definition nl : string := String (ascii_of_N 10) "".
(** sarwin.go:1654-1694 cmdHelp *)
Definition cmd_help (args : list string) : list shown :=
  let all f := [msg (String.concat "" (map (fun s => s ++ nl) (sort_strings (map f sar_commands))))] in
  let own := match lookup "help" sar_commands with Some t => [msg ("help - " ++ c_help t)] | None => [] end in
  match args with
  | [_] => all (fun e => fst e ++ " - " ++ c_help (snd e))
  | [_; a] => if String.eqb a "?" then all (fun e => fst e ++ " - " ++ c_help (snd e) ++ nl ++ "  " ++ c_usage (snd e)) else own
  | _ => own
  end.
(** sarwin.go:2437-2452 cmdUsage *)
Definition cmd_usage (args : list string) : list shown :=
  [msg (String.concat "" (map (fun s => s ++ nl) (sort_strings (map (fun e => fst e ++ " - " ++ c_usage (snd e)) sar_commands))))].

(** sarwin.go:1755-1772 cmdHistory *)
Definition cmd_history (args : list string) : list shown :=
  match args with
  | [_] => [msg "History not implemented yet"]
  | [_; a] => if String.eqb a "?" then help_of "history" else [msg "History not implemented yet"]
  | _ => [err (prusage "history")]
  end.
(** sarwin.go:1774-1788 cmdHome *)
Definition cmd_home (args : list string) : list shown :=
  match args with
  | [_] => [msg "Home not implemented yet"]
  | [_; a] => if String.eqb a "?" then help_of "home" else [err (prusage "home")]
  | _ => [err (prusage "home")]
  end.
(** sarwin.go:1790-1802 cmdLs *)
Definition cmd_ls (args : list string) : outcome (list shown) :=
  match args with
  | [] => Panic
  | _ => Ret [err (prusage "ls")]
  end.
(** sarwin.go:1805-1886 cmdPeers: the text of the table is peers_text (Table.v); here,
    that printing the times of a peer can end the process *)
Definition cmd_peers (peers : list peer) (args : list string) : outcome (list shown) :=
  match args with
  | [_] =>
      match peers with
      | [] => Ret [msg "No Peers"]
      | _ => do _ <- ofold (fun _ p => do _ <- ts_print_ok (p_created p); ts_print_ok (p_updated p)) tt peers;
             Ret [Peers peers]
      end
  | [_; a] => Ret (if String.eqb a "?" then help_of "peers" else [])
  | _ => Ret [msg (prhelp "peers"); err (prusage "peers")]
  end.

(** sarwin.go:2078-2105 cmdRmtran: the table.  Simplification: nothing happens between
    Match and Remove (Slots.v and Tranlist.v have what others do in between). *)
Definition cmd_rmtran (table : list transfer) (args : list string) : outcome (list transfer * list shown) :=
  let usage := err (prusage "rmtran") in
  match args with
  | [_] => Ret (table, [msg (prhelp "rmtran"); usage])
  | [_; a] => Ret (table, if String.eqb a "?" then help_of "rmtran" else [usage])
  | [_; ttype; addr; n] =>
      match parse_uint 32 n with
      | None => Ret (table, [usage])
      | Some session =>
          do q <- tmatch table addr session;
          match q with
          | None => Ret (table, [msg ("No such transfer:" ++ ttype ++ " " ++ addr ++ " " ++ addr); usage])
          | Some q =>
              match tread {| tm_table := table; tm_cells := [] |} q with
              | Some t => let (table', e) := tremove table t in Ret (table', match e with Some s => [msg s] | None => [] end)
              | None => Panic
              end
          end
      end
  | _ => Ret (table, [usage])
  end.

(** ** Goroutines *)

(** sarwin.go:1265-1272 Beaconcmd *)
Record beaconcmd := { bc_flags : string; bc_count : N; bc_interval : N; bc_v4 : bool; bc_v6 : bool; bc_hosts : list udpaddr }.
(** sarwin/sarwin.go:1264-1273: the zero Beaconcmd, clibeacon at the start *)
Definition no_beaconcmd : beaconcmd := {| bc_flags := ""; bc_count := 0; bc_interval := 0; bc_v4 := false; bc_v6 := false; bc_hosts := [] |}.

(** The system, as a step of a goroutine finds it
    (what sarwin/sarwin.go:699-733, 921-987, 1276-1365 get from net, os and the clock) *)
Record cenv := {
  ce_resolve : string -> option udpaddr;       (* the resolver *)
  ce_dial : udpaddr -> option string;          (* net.DialUDP: the local address *)
  ce_sys : sysenv;                             (* for the free space *)
  ce_write : bool;                             (* conn.Write succeeds *)
  ce_now : gotime; ce_pid : N; ce_chdir : bool
}.
(** The part of it that NewInitiator uses (sarwin/sarwin.go:921-987) *)
Definition ienv_of (E : cenv) : ienv :=
  {| ie_now := ce_now E; ie_pid := ce_pid E; ie_dial := fun a => match ce_dial E a with Some _ => true | None => false end;
     ie_resolve := ce_resolve E; ie_chdir := ce_chdir E |}.

(** What the beacon command has still to do: an address argument ([off]: the first
    argument is "off"), a multicast address, or [more] more copies of [b] to [to]
    (sarwin/sarwin.go:1276-1365 cmdBeacon, 699-733 sendbeacons) *)
Inductive bact := BHost (off : bool) (text : string) | BGroup (text : string) | BLoop (to : udpaddr) (b : beacon) (more : N).
(** A goroutine: not begun; the beacon command, holding Climu; NewInitiator after its
    look at the table; waiting for the end of the transfer on a channel; Do, before and
    after it throws its channel away (None: nil); ended
    (sarwin/sarwin.go:2497-2521 Run, which starts each command with "go"; 1276-1365, 921-987, 1890-2076.) *)
Inductive task :=
| TStart (args : list string)
| TBeacon (todo : list bact)
| TAdd (ttype : string) (peer : udpaddr) (fname : string) (waits : bool)
| TWait (ch : nat) (t : transfer)
| TDo (e : option nat)
| TEnd.
(** sarwin/sarwin.go:1279-1280: the beacon command keeps Climu until it returns *)
Definition holds_climu (t : task) : bool := match t with TBeacon _ => true | _ => false end.

(** The variables of the process; [y_chans]: the buffered values of each errflag channel;
    [y_sent]: what was sent (by which goroutine, to whom, what); [y_shown]: what was shown
    (sarflags/sarflags.go:289 Cliflag, sarwin/sarwin.go:895 Transfers, 860 sessionid, 1273 clibeacon, 1501 Cexit,
    beacon/beacon.go:341 Peers.) *)
Record ystate := {
  y_cli : cliflags; y_beacon : beaconcmd; y_tran : istate; y_peers : list peer; y_exit : Z;
  y_tasks : list task; y_chans : list (list error);
  y_sent : list (nat * udpaddr * list byte); y_shown : list shown; y_dead : bool
}.
(** Assignments to the variables of [ystate], as the steps below make them; this one to sarflags.Cliflag
    (sarflags/sarflags.go:289) *)
Definition y_with_cli (s : ystate) (c : cliflags) : ystate :=
  {| y_cli := c; y_beacon := y_beacon s; y_tran := y_tran s; y_peers := y_peers s; y_exit := y_exit s;
     y_tasks := y_tasks s; y_chans := y_chans s; y_sent := y_sent s; y_shown := y_shown s; y_dead := y_dead s |}.
(** ... to clibeacon (sarwin/sarwin.go:1273) *)
Definition y_with_beacon (s : ystate) (b : beaconcmd) : ystate :=
  {| y_cli := y_cli s; y_beacon := b; y_tran := y_tran s; y_peers := y_peers s; y_exit := y_exit s;
     y_tasks := y_tasks s; y_chans := y_chans s; y_sent := y_sent s; y_shown := y_shown s; y_dead := y_dead s |}.
(** ... to Transfers, sessionid and the files (sarwin/sarwin.go:860, 895) *)
Definition y_with_tran (s : ystate) (t : istate) : ystate :=
  {| y_cli := y_cli s; y_beacon := y_beacon s; y_tran := t; y_peers := y_peers s; y_exit := y_exit s;
     y_tasks := y_tasks s; y_chans := y_chans s; y_sent := y_sent s; y_shown := y_shown s; y_dead := y_dead s |}.
(** ... to Cexit (sarwin/sarwin.go:1501) *)
Definition y_with_exit (s : ystate) (z : Z) : ystate :=
  {| y_cli := y_cli s; y_beacon := y_beacon s; y_tran := y_tran s; y_peers := y_peers s; y_exit := z;
     y_tasks := y_tasks s; y_chans := y_chans s; y_sent := y_sent s; y_shown := y_shown s; y_dead := y_dead s |}.
(** ... to the list of goroutines (sarwin/sarwin.go:2497-2521 Run) *)
Definition y_with_tasks (s : ystate) (l : list task) : ystate :=
  {| y_cli := y_cli s; y_beacon := y_beacon s; y_tran := y_tran s; y_peers := y_peers s; y_exit := y_exit s;
     y_tasks := l; y_chans := y_chans s; y_sent := y_sent s; y_shown := y_shown s; y_dead := y_dead s |}.
(** ... to the channels errflag (sarwin/sarwin.go:1890-2076) *)
Definition y_with_chans (s : ystate) (l : list (list error)) : ystate :=
  {| y_cli := y_cli s; y_beacon := y_beacon s; y_tran := y_tran s; y_peers := y_peers s; y_exit := y_exit s;
     y_tasks := y_tasks s; y_chans := l; y_sent := y_sent s; y_shown := y_shown s; y_dead := y_dead s |}.
(** A frame written to a connection (sarwin/sarwin.go:699-729 sendbeacons) *)
Definition y_send (s : ystate) (i : nat) (to : udpaddr) (frame : list byte) : ystate :=
  {| y_cli := y_cli s; y_beacon := y_beacon s; y_tran := y_tran s; y_peers := y_peers s; y_exit := y_exit s;
     y_tasks := y_tasks s; y_chans := y_chans s; y_sent := (y_sent s ++ [(i, to, frame)])%list; y_shown := y_shown s; y_dead := y_dead s |}.
(** Texts handed to the windows (sarwin/sarwin.go:125-162) *)
Definition y_show (s : ystate) (l : list shown) : ystate :=
  {| y_cli := y_cli s; y_beacon := y_beacon s; y_tran := y_tran s; y_peers := y_peers s; y_exit := y_exit s;
     y_tasks := y_tasks s; y_chans := y_chans s; y_sent := y_sent s; y_shown := (y_shown s ++ l)%list; y_dead := y_dead s |}.
(** The end of the process: panic, log.Fatal (e.g. sarwin/sarwin.go:981) *)
Definition y_kill (s : ystate) : ystate :=
  {| y_cli := y_cli s; y_beacon := y_beacon s; y_tran := y_tran s; y_peers := y_peers s; y_exit := y_exit s;
     y_tasks := y_tasks s; y_chans := y_chans s; y_sent := y_sent s; y_shown := y_shown s; y_dead := true |}.

(** Goroutine [i] is now [t] (no code of its own; sarwin/sarwin.go:2497-2521) *)
Fixpoint set_nth (l : list task) (i : nat) (t : task) : list task :=
  match l, i with
  | [], _ => []
  | _ :: r, O => t :: r
  | x :: r, S i => x :: set_nth r i t
  end.
(** Auxiliary, no code of its own: goroutine [i] of sarwin/sarwin.go:2497-2521 goes on with [t] *)
Definition become (s : ystate) (i : nat) (t : task) : ystate := y_with_tasks s (set_nth (y_tasks s) i t).
(** ... and ends, having shown [l] (the function of sarwin/sarwin.go:2459-2494 that runs it returns) *)
Definition finish (s : ystate) (i : nat) (l : list shown) : ystate := y_show (become s i TEnd) l.
(** A panic or log.Fatal in any goroutine ends the process (no code of its own; e.g. sarwin/sarwin.go:981 panic) *)
Definition or_die (s : ystate) (m : outcome ystate) : ystate :=
  match m with Ret s' => s' | _ => y_kill s end.

(** The commands that hold Climu for one step
    (sarwin/sarwin.go:2459-2494 cmdhandler: those that lock Climu and return) *)
Definition setting_commands : list (string * (cliflags -> list string -> setting)) :=
  [("bcount", cmd_bcount); ("checksum", cmd_checksum); ("descriptor", cmd_descriptor); ("freespace", cmd_freespace);
   ("interval", cmd_interval); ("reqtstamp", cmd_reqtstamp); ("rxwilling", cmd_rxwilling); ("stream", cmd_stream);
   ("timeout", cmd_timeout); ("timestamp", cmd_timestamp); ("timezone", cmd_timezone); ("txwilling", cmd_txwilling)].

(** sarwin.go:1278-1350: the beacon command up to the addresses *)
Definition cmd_beacon (c : cliflags) (b : beaconcmd) (args : list string) : beaconcmd * list shown * list bact :=
  let b := {| bc_flags := sf_setglobal sar "beacon" c; bc_count := cl_bcount c; bc_interval := to_binterval (cl_timeout c);
              bc_v4 := bc_v4 b; bc_v6 := bc_v6 b; bc_hosts := bc_hosts b |} in
  match args with
  | [_] =>
      if negb (bc_v4 b) && negb (bc_v6 b) && Nat.eqb (length (bc_hosts b)) 0
      then (b, [msg "No beacons currently being sent"], [])
      else
        (b,
         ((if bc_v4 b then [msg ("Sending " ++ itoa (bc_count b) ++ " IPv4 multicast beacons" ++ nl)] else []) ++
          (if bc_v6 b then [msg ("Sending " ++ itoa (bc_count b) ++ " IPv6 multicast beacons" ++ nl)] else []) ++
          (if Nat.ltb 0 (length (bc_hosts b))
           then msg ("Sending " ++ itoa (bc_count b) ++ " beacons to:") ::
                map (fun h => msg (String (ascii_of_N 9) (udpaddr_string h))) (bc_hosts b)
           else []))%list, [])
  | [_; a] =>
      if String.eqb a "?" then (b, help_of "beacon", [])
      else if String.eqb a "off" then
        ({| bc_flags := bc_flags b; bc_count := bc_count b; bc_interval := bc_interval b; bc_v4 := bc_v4 b; bc_v6 := bc_v6 b; bc_hosts := [] |},
         [msg "Beacons Disabled"], [])
      else if String.eqb a "v4" then
        ({| bc_flags := bc_flags b; bc_count := bc_count b; bc_interval := bc_interval b; bc_v4 := true; bc_v6 := bc_v6 b; bc_hosts := bc_hosts b |},
         [msg "Sending beacon to IPv4 Multicast"], [BGroup (cl_v4 c)])
      else if String.eqb a "v6" then
        ({| bc_flags := bc_flags b; bc_count := bc_count b; bc_interval := bc_interval b; bc_v4 := bc_v4 b; bc_v6 := true; bc_hosts := bc_hosts b |},
         [msg "Sending beacon to IPv6 Multicast"], [BGroup (cl_v6 c)])
      else (b, [], [BHost false a])
  | _ :: first :: rest => (b, [], map (BHost (String.eqb first "off")) rest)
  | [] => (b, [], [])
  end.

(** sarwin.go:699-719: sendbeacons up to its loop; None: it has given up.  The endpoint
    id is the local address, a dash and the process id.  The text of the system's errors
    is left out of what is shown. *)
Definition begin_beacons (E : cenv) (b : beaconcmd) (to : udpaddr) : outcome (option bact * list shown) :=
  match ce_dial E to with
  | None => Ret (None, [err ("Error:" ++ "Unable to Dial" ++ udpaddr_string to)])
  | Some local =>
      let eid := local ++ "-" ++ itoa (ce_pid E) in
      do ' (txb, e) <- beacon_new (ce_sys E) zero_beacon (bc_flags b) {| bi_freespace := 0; bi_eid := eid |};
      let said := msg ("Sending beacon to " ++ udpaddr_string to) in
      match e with
      | Some e => Ret (None, [said; err ("New Beacon Error:" ++ e)])
      | None => Ret (Some (BLoop to txb (bc_count b)), [said])
      end
  end.
(** Auxiliary, no code of its own: the steps of sarwin/sarwin.go:1276-1365 that are left *)
Definition then_do (r : option bact) (rest : list bact) : list bact := match r with Some x => x :: rest | None => rest end.

(** sarwin.go:1296-1366, 720-731: one step of the beacon command of goroutine [i]:
    an address, or one beacon.  The time slept is not modelled, and of the text shown for a
    beacon sent only the first line. *)
Definition beacon_step (E : cenv) (s : ystate) (i : nat) (x : bact) (rest : list bact) : outcome ystate :=
  match x with
  | BHost off text =>
      match udp_address (ce_resolve E) text with
      | (Some to, None) =>
          if (off : bool) then
            let b := y_beacon s in
            Ret (become (y_with_beacon s {| bc_flags := bc_flags b; bc_count := bc_count b; bc_interval := bc_interval b; bc_v4 := bc_v4 b;
                          bc_v6 := bc_v6 b; bc_hosts := filter (fun h => negb (String.eqb (udpaddr_string to) (udpaddr_string h))) (bc_hosts b) |})
                   i (TBeacon rest))
          else
            do ' (r, l) <- begin_beacons E (y_beacon s) to;
            Ret (y_show (become s i (TBeacon (then_do r rest)))
                        (msg ("Sending " ++ itoa (bc_count (y_beacon s)) ++ " beacons to " ++ udpaddr_string to) :: l))
      | _ => Ret (y_show (become s i (TBeacon rest)) [err ("Invalid IP Address:" ++ text); err (prusage "beacon")])
      end
  | BGroup text =>
      match udp_address (ce_resolve E) text with
      | (Some to, None) =>
          do ' (r, l) <- begin_beacons E (y_beacon s) to; Ret (y_show (become s i (TBeacon (then_do r rest))) l)
      | _ => Ret (become s i (TBeacon rest))
      end
  | BLoop to b more =>
      if more =? 0 then Ret (become s i (TBeacon rest))
      else
        do e <- beacon_encode b;
        match e with
        | EncErr e => Ret (y_show (become s i (TBeacon rest)) [err ("Error:" ++ e ++ " Unable to send beacon to " ++ udpaddr_string to)])
        | Frame f =>
            if ce_write E then
              do _ <- beacon_shortprint_ok b;
              Ret (y_show (become (y_send s i to f) i (TBeacon (BLoop to b (more - 1) :: rest)))
                          [Text WPacket ("Tx " ++ udpaddr_string to)])
            else Ret (y_show (become s i (TBeacon rest)) [err ("Error:" ++ " Unable to send beacon to " ++ udpaddr_string to)])
        end
  end.

(** The commands that start a transfer: what Info lists without arguments, the type they
    give the transfer, whether they wait for its end, the texts of "?" and of the errors
    (sarwin/sarwin.go:1578-1651, 1890-2005, 2040-2076.) *)
Record tcommand := { tc_lists : string; tc_type : string; tc_waits : bool; tc_help : string; tc_usage : string;
                     tc_refused : string -> list shown; tc_noaddr : string -> list shown }.
(** sarwin.go:1578-1651 cmdGet, cmdGetdir, cmdTake, 1890-2005 cmdPut, cmdPutblind,
    cmdGive, 2040-2076 cmdDelete *)
Definition transfer_commands : list (string * tcommand) :=
  let noaddr a := err ("Invalid IP Address:" ++ a) in
  [("get", {| tc_lists := "get"; tc_type := "get"; tc_waits := false; tc_help := "get"; tc_usage := "get"; tc_refused := fun _ => []; tc_noaddr := fun _ => [] |});
   ("getdir", {| tc_lists := "getdir"; tc_type := "getdir"; tc_waits := false; tc_help := "getdir"; tc_usage := "getdir";
                 tc_refused := fun _ => [msg (prhelp "getdir"); err (prusage "getdir")]; tc_noaddr := fun a => [noaddr a] |});
   ("take", {| tc_lists := "getrm"; tc_type := "take"; tc_waits := false; tc_help := "take"; tc_usage := "take";
               tc_refused := fun _ => [msg (prhelp "take"); err (prusage "take")]; tc_noaddr := fun a => [noaddr a] |});
   ("put", {| tc_lists := "put"; tc_type := "put"; tc_waits := true; tc_help := "put"; tc_usage := "put";
              tc_refused := fun _ => [msg (prhelp "getrm"); err (prusage "getrm")]; tc_noaddr := fun a => [noaddr a; err (prusage "put")] |});
   ("putblind", {| tc_lists := "putblind"; tc_type := "putblind"; tc_waits := true; tc_help := "putblind"; tc_usage := "putblind";
                   tc_refused := fun _ => [msg (prhelp "putblind"); err (prusage "putblind")]; tc_noaddr := fun a => [noaddr a; err (prusage "putblind")] |});
   ("give", {| tc_lists := "putrm"; tc_type := "give"; tc_waits := true; tc_help := "give"; tc_usage := "putrm";
               tc_refused := fun a => [noaddr a; err (prusage "putblind"); err (prusage "putrm")];
               tc_noaddr := fun a => [err (prusage "putblind"); err (prusage "putrm")] |});
   ("delete", {| tc_lists := "rm"; tc_type := "delete"; tc_waits := true; tc_help := "delete"; tc_usage := "delete";
                 tc_refused := fun _ => [msg (prhelp "delete"); err (prusage "delete")]; tc_noaddr := fun a => [noaddr a; err (prusage "delete")] |})].
(** sarwin.go:923-948: what NewInitiator shows when it refuses *)
Fixpoint initiator_says (fs : fsys) (cwd : path) (sardir : string) (all l : list transfer) (ttype : string) (peer : udpaddr) (fname : string) : list shown :=
  match l with
  | [] => []
  | i :: r =>
      match tr_conn i with
      | None => err ("No connection exists to peer: " ++ udpaddr_string peer) ::
                match snd (tremove all i) with Some _ => [err ("Can't remove transfer of" ++ itoa (tr_session i))] | None => [] end
      | Some _ =>
          if file_exists fs cwd sardir fname && one_of ttype ["get"; "getdelete"; "getdir"]
          then [err ("File " ++ fname ++ " already exists, cannot overwrite")]
          else if String.eqb fname (tr_filename i) && String.eqb (udpaddr_string peer) (udpaddr_string (tr_peer i))
               then [err ("Initiator " ++ fname ++ " to " ++ udpaddr_string peer ++ " currently in progress")]
               else initiator_says fs cwd sardir all r ttype peer fname
      end
  end.
(** Their first step: up to the end of NewInitiator's look at the table
    (sarwin/sarwin.go:1578-1651, 1890-2005, 2040-2076, 921-948) *)
Definition start_transfer (E : cenv) (s : ystate) (i : nat) (tc : tcommand) (args : list string) : ystate :=
  let usage := [err (prusage (tc_usage tc))] in
  match args with
  | [_] => finish s i (info (is_table (y_tran s)) (tc_lists tc))
  | [_; a] => finish s i (if String.eqb a "?" then help_of (tc_help tc) else usage)
  | [_; a; f] =>
      match udp_address (ce_resolve E) a with
      | (Some peer, None) =>
          let t := y_tran s in
          match initiator_check (is_fs t) (is_cwd t) (cl_sardir (y_cli s)) (is_table t) (tc_type tc) peer f with
          | Some l => finish (y_with_tran s {| is_table := l; is_session := is_session t; is_fs := is_fs t; is_cwd := is_cwd t |}) i
                        (initiator_says (is_fs t) (is_cwd t) (cl_sardir (y_cli s)) (is_table t) (is_table t) (tc_type tc) peer f ++ tc_refused tc a)%list
          | None => become s i (TAdd (tc_type tc) peer f (tc_waits tc))
          end
      | _ => finish s i (tc_noaddr tc a)
      end
  | _ => finish s i usage
  end.

(** The first step of a goroutine.  None: it cannot run, since Climu is taken.
    (sarwin/sarwin.go:2497-2521 Run: go cmdhandler[name](g, args)) *)
Definition start_step (E : cenv) (s : ystate) (i : nat) (args : list string) : option ystate :=
  let busy := existsb holds_climu (y_tasks s) in
  let name := match args with a :: _ => a | [] => "" end in
  match lookup name setting_commands with
  | Some f => if busy then None else let (c, l) := f (y_cli s) args in Some (finish (y_with_cli s c) i l)
  | None =>
  match lookup name transfer_commands with
  | Some tc => Some (start_transfer E s i tc args)
  | None =>
      if String.eqb name "beacon" then
        if busy then None
        else let '(b, l, todo) := cmd_beacon (y_cli s) (y_beacon s) args in Some (y_show (become (y_with_beacon s b) i (TBeacon todo)) l)
      else if String.eqb name "cancel" then Some (finish s i (cmd_cancel args))
      else if String.eqb name "clear" then Some (finish s i (cmd_clear args))
      else if one_of name ["exit"; "quit"] then let (z, l) := cmd_exit (y_exit s) args in Some (finish (y_with_exit s z) i l)
      else if String.eqb name "files" then Some (finish s i (cmd_files (is_table (y_tran s)) args))
      else if one_of name ["help"; "?"] then Some (finish s i (cmd_help args))
      else if String.eqb name "history" then Some (finish s i (cmd_history args))
      else if String.eqb name "home" then Some (finish s i (cmd_home args))
      else if String.eqb name "ls" then Some (or_die s (do l <- cmd_ls args; Ret (finish s i l)))
      else if String.eqb name "peers" then Some (or_die s (do l <- cmd_peers (y_peers s) args; Ret (finish s i l)))
      else if String.eqb name "rmtran" then
        Some (or_die s (do ' (table, l) <- cmd_rmtran (is_table (y_tran s)) args;
          let t := y_tran s in
          Ret (finish (y_with_tran s {| is_table := table; is_session := is_session t; is_fs := is_fs t; is_cwd := is_cwd t |}) i l)))
      else if String.eqb name "tran" then Some (finish s i (cmd_tran (is_table (y_tran s)) args))
      else if String.eqb name "usage" then Some (finish s i (cmd_usage args))
      else None
  end end.

(** One step of goroutine [i].  None: it is blocked, or there is none.
    (sarwin/sarwin.go:1276-1365, 949-987, 1890-2076, 1248-1251) *)
Definition task_step (E : cenv) (s : ystate) (i : nat) : option ystate :=
  match nth_error (y_tasks s) i with
  | Some (TStart args) => start_step E s i args
  | Some (TBeacon []) => Some (become s i TEnd)
  | Some (TBeacon (x :: rest)) => Some (or_die s (beacon_step E s i x rest))
  | Some (TAdd ttype peer fname waits) =>
      (* sarwin.go:962-984: the errors of the system and of opening the file are left out of what is shown *)
      let added := msg ("Initiator Added " ++ ttype ++ " Transfer to " ++ udpaddr_string peer ++ " " ++ fname) in
      Some (or_die s
        (do ' (t', t) <- initiator_add (ienv_of E) (cl_sardir (y_cli s)) (y_cli s) (y_tran s) ttype peer fname;
         let s := y_with_tran s t' in
         if (waits : bool) then
           (* errflag := make(chan error, 1); go t.Do(g, errflag); errcode := <-errflag *)
           let ch := length (y_chans s) in
           let s := y_with_chans (become s i (TWait ch t)) (y_chans s ++ [[]])%list in
           Ret (y_show (y_with_tasks s (y_tasks s ++ [TDo (Some ch)])%list) [added])
         else Ret (finish s i [added])))
  | Some (TWait ch t) =>
      match nth_error (y_chans s) ch with
      | Some (e :: _) =>
          let tr := y_tran s in
          let table := match e with Some _ => fst (tremove (is_table tr) t) | None => is_table tr end in
          Some (finish (y_with_tran s {| is_table := table; is_session := is_session tr; is_fs := is_fs tr; is_cwd := is_cwd tr |}) i
                       [msg "completed closing channel"])
      | _ => None
      end
  | Some (TDo (Some _)) =>
      (* Transfer.Do, sarwin.go:1248-1255: its first message is given in place of a colour, so the line shown is empty *)
      Some (y_show (become s i (TDo None)) [msg ""; err "Charles write some code to Do a transfer!!!!"])
  | Some (TDo None) => None
  | Some TEnd => None
  | None => None
  end.

(** ** Typing *)

(** cmdhandler: sarwin.go:2457-2494 *)
Definition handler_names : list string :=
  ["?"; "beacon"; "bcount"; "cancel"; "checksum"; "clear"; "delete"; "descriptor"; "exit"; "files"; "freespace"; "get"; "getdir"; "give";
   "help"; "history"; "home"; "interval"; "ls"; "peers"; "put"; "putblind"; "quit"; "reqtstamp"; "rmtran"; "rxwilling"; "stream"; "take";
   "timeout"; "timestamp"; "timezone"; "tran"; "txwilling"; "usage"].
(** sarwin.go:2497-2521 Run: the words of the goroutine it starts, what it shows and what
    it returns.  vals[0] panics without words (Commands is not empty). *)
Definition run_line (name : string) : outcome (option (list string) * list shown * bool) :=
  if String.eqb name "" then Ret (None, [], true)
  else
    let vals := fields (trim_space name) in
    match vals with
    | [] => Panic
    | v :: _ =>
        if has_key v sar_commands then
          if one_of v handler_names then Ret (Some vals, [], true)
          else Ret (None, [err ("Invalid command:" ++ v); err ("Invalid command:" ++ v)], false)
        else Ret (None, [err ("Invalid command:" ++ v)], false)
    end.
(** sarwin.go:575-607 GetLine in the cmd view, given the line of the view.  The history
    of commands (594) is not modelled: nothing reads it. *)
Definition get_line (line : string) : outcome (option (list string) * list shown) :=
  do text <- index (split_two ":" line) 1;
  if String.eqb text "" then Ret (None, [])
  else if one_of text ["exit"; "quit"] then Fatal
  else do ' (g, l, _) <- run_line text; Ret (g, l).

(** ** Runs *)

(** Enter is pressed on a line, goroutine [i] makes a step, or others (the daemon of
    saratoga.go, other programs) change the files and the table of peers (sarwin/sarwin.go:575-607, 2497-2521) *)
Inductive ylabel := YLine (line : string) | YStep (E : cenv) (i : nat) | YOther (fs : fsys) (peers : list peer).
(** The scheduler's choices: a line is entered, a goroutine makes a step, or another part of the program changes the
    table of peers (saratoga/saratoga.go:607-671), the files or the transfers *)
Definition y_other (s : ystate) (fs : fsys) (peers : list peer) : ystate :=
  let t := y_tran s in
  {| y_cli := y_cli s; y_beacon := y_beacon s;
     y_tran := {| is_table := is_table t; is_session := is_session t; is_fs := fs; is_cwd := is_cwd t |};
     y_peers := peers; y_exit := y_exit s;
     y_tasks := y_tasks s; y_chans := y_chans s; y_sent := y_sent s; y_shown := y_shown s; y_dead := y_dead s |}.
(** One choice (sarwin/sarwin.go:575-607 GetLine, 2497-2521 Run; a step of a goroutine) *)
Definition ystep (s : ystate) (l : ylabel) : option ystate :=
  if y_dead s then None
  else
    match l with
    | YLine line =>
        Some (or_die s (do ' (g, l) <- get_line line;
          let s := y_show s l in
          Ret (match g with Some args => y_with_tasks s (y_tasks s ++ [TStart args])%list | None => s end)))
    | YStep E i => task_step E s i
    | YOther fs peers => Some (y_other s fs peers)
    end.
(** Labels that are not possible are passed over
    (no code of its own: an execution of sarwin/sarwin.go:2497-2521 and of the goroutines it starts) *)
Fixpoint yrun (s : ystate) (ls : list ylabel) : ystate :=
  match ls with
  | [] => s
  | l :: r => yrun (match ystep s l with Some s' => s' | None => s end) r
  end.
(** At the beginning, with the shipped configuration (saratoga/saratoga.go:439-604) *)
Definition ystart (fs : fsys) (cwd : path) (peers : list peer) : ystate :=
  {| y_cli := sar_cli; y_beacon := no_beaconcmd; y_tran := {| is_table := []; is_session := 0; is_fs := fs; is_cwd := cwd |};
     y_peers := peers; y_exit := (-1)%Z; y_tasks := []; y_chans := []; y_sent := []; y_shown := []; y_dead := false |}.
