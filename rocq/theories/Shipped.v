(** * The shipped configuration saratoga/saratoga.json as a term
    (whole file, transcribed mechanically), and the tables [ReadConfig] computes
    from it.  All frame codecs of the model use these tables. *)

From Verif Require Import GoBase Flags Config.
Local Open Scope string_scope.
Local Open Scope N_scope.

(** saratoga/saratoga.json *)
Definition saratoga_json : list (string * json) := [
  ("_comment", JStr "Refer to Config struct comments in sarflags.go and saratoga.go");
  ("v4multicast", JStr "224.0.0.108");
  ("v6multicast", JStr "ff02::6c");
  ("udpport", JNum 7542);
  ("descriptor", JStr "d64");
  ("csumtype", JStr "none");
  ("freespace", JStr "yes");
  ("txwilling", JStr "yes");
  ("rxwilling", JStr "yes");
  ("stream", JStr "no");
  ("reqtstamp", JStr "yes");
  ("reqstatus", JStr "no");
  ("udplite", JStr "no");
  ("timestamp", JStr "posix64");
  ("timezone", JStr "utc");
  ("sardir", JStr "/Users/chas/sardir");
  ("prompt", JStr "saratoga");
  ("ppad", JNum 3);
  ("buffersize", JNum 1024);
  ("bcount", JNum 3);
  ("timeout", JObj [("metadata", JNum 55); ("request", JNum 56); ("status", JNum 57); ("transfer", JNum 58); ("binterval", JNum 3); ("datacounter", JNum 100)]);
  ("commands", JObj [
    ("?", JObj [("usage", JStr "?"); ("help", JStr "show valid commands. cmd ? shows the individual commands usage")]);
    ("beacon", JObj [("usage", JStr "beacon [off] [v4|v6|<ip>...]"); ("help", JStr "send bcount beacons every interval secs. off is ignore beacons")]);
    ("bcount", JObj [("usage", JStr "bcount [numb]"); ("help", JStr "set number of beacons to send")]);
    ("cancel", JObj [("usage", JStr "cancel <transfer>"); ("help", JStr "cancel a current transfer in progress")]);
    ("checksum", JObj [("usage", JStr "checksum [off|none|crc32|md5|sha1]"); ("help", JStr "set checksums required and type")]);
    ("clear", JObj [("usage", JStr "clear [msg|err|packet]..."); ("help", JStr "clear display window view")]);
    ("delete", JObj [("usage", JStr "delete <peer> <filename>"); ("help", JStr "remove a file from a peer")]);
    ("descriptor", JObj [("usage", JStr "descriptor [auto|d16|d32|d64|d128]"); ("help", JStr "advertise & set default descriptor size")]);
    ("exit", JObj [("usage", JStr "exit [0|1]"); ("help", JStr "exit saratoga")]);
    ("files", JObj [("usage", JStr "files"); ("help", JStr "list local files currently open and mode")]);
    ("freespace", JObj [("usage", JStr "freespace [yes|no]"); ("help", JStr "advertise freespace or show amount left")]);
    ("get", JObj [("usage", JStr "get [<peer> <filename>]"); ("help", JStr "get a file from a peer")]);
    ("getdir", JObj [("usage", JStr "getdir [<peer> <dirname>]"); ("help", JStr "get a directory listing from a peer")]);
    ("give", JObj [("usage", JStr "give <peer> <filename>"); ("help", JStr "send a file to a peer and then remove it when successful")]);
    ("help", JObj [("usage", JStr "help"); ("help", JStr "show commands")]);
    ("history", JObj [("usage", JStr "history"); ("help", JStr "show command history")]);
    ("home", JObj [("usage", JStr "home [<dirname>]"); ("help", JStr "set home directory for transfers")]);
    ("interval", JObj [("usage", JStr "interval [seconds]"); ("help", JStr "set interval between sending beacons")]);
    ("ls", JObj [("usage", JStr "ls [<peer> [<dirname>>]]"); ("help", JStr "show local or a peers directory contents")]);
    ("peers", JObj [("usage", JStr "peers"); ("help", JStr "list current peers found")]);
    ("put", JObj [("usage", JStr "put <peer> <filename>"); ("help", JStr "send a file to a peer")]);
    ("putblind", JObj [("usage", JStr "putblind <peer> <filename>"); ("help", JStr "send a file to a peer with no initial request/status exchange")]);
    ("quit", JObj [("usage", JStr "quit [0|1]"); ("help", JStr "exit saratoga")]);
    ("reqtstamp", JObj [("usage", JStr "reqtstamp [no|yes]"); ("help", JStr "request timestamps")]);
    ("rmtran", JObj [("usage", JStr "rmtran <peer> <session>"); ("help", JStr "remove a current transfer")]);
    ("rxwilling", JObj [("usage", JStr "rxwilling [on|off|capable]"); ("help", JStr "current receive status or turn receive on/off/capable")]);
    ("stream", JObj [("usage", JStr "stream [yes|no]"); ("help", JStr "current stream status or can/cannot handle stream")]);
    ("take", JObj [("usage", JStr "take [<peer> <filename>]"); ("help", JStr "get a file from a peer and remove it from peer when successfully transferred")]);
    ("timeout", JObj [("usage", JStr "timeout [metadata|request|transfer|status|dataframes] <secs|off>"); ("help", JStr "timeouts in secs for metadata, request frames, status receipts, transfer completion, status sent every dataframes")]);
    ("timestamp", JObj [("usage", JStr "timestamp [off|32|64|32_32|64_32|32_y2k]"); ("help", JStr "timestamp type to send")]);
    ("timezone", JObj [("usage", JStr "timezone [utc|local]"); ("help", JStr "show current or set to use local or universal time")]);
    ("tran", JObj [("usage", JStr "tran [get|take|getdir|put|give|putblind|rm|rmdir]"); ("help", JStr "list current active transfers of specific type or all")]);
    ("txwilling", JObj [("usage", JStr "txwilling [on|off|capable]"); ("help", JStr "show current transfer capability or set on/off/capable")]);
    ("usage", JObj [("usage", JStr "usage"); ("help", JStr "show usage of commands")])]);
  ("frameflags", JObj [
    ("beacon", JArr [JStr "version"; JStr "frametype"; JStr "descriptor"; JStr "stream"; JStr "txwilling"; JStr "rxwilling"; JStr "udplite"; JStr "freespace"; JStr "freespaced"]);
    ("request", JArr [JStr "version"; JStr "frametype"; JStr "descriptor"; JStr "stream"; JStr "txwilling"; JStr "rxwilling"; JStr "reqtype"; JStr "fileordir"; JStr "udplite"]);
    ("metadata", JArr [JStr "version"; JStr "frametype"; JStr "descriptor"; JStr "transfer"; JStr "progress"; JStr "reliability"; JStr "csumlen"; JStr "csumtype"]);
    ("data", JArr [JStr "version"; JStr "frametype"; JStr "descriptor"; JStr "transfer"; JStr "reqtstamp"; JStr "reqstatus"; JStr "eod"]);
    ("status", JArr [JStr "version"; JStr "frametype"; JStr "descriptor"; JStr "reqtstamp"; JStr "metadatarecvd"; JStr "allholes"; JStr "reqholes"; JStr "errcode"])]);
  ("flags", JObj [
    ("version", JObj [
      ("frametypes", JArr [JStr "beacon"; JStr "request"; JStr "metadata"; JStr "data"; JStr "status"]);
      ("len", JNum 3);
      ("msb", JNum 0);
      ("options", JObj [("v0", JNum 0); ("v1", JNum 1)])]);
    ("frametype", JObj [
      ("frametypes", JArr [JStr "beacon"; JStr "request"; JStr "metadata"; JStr "data"; JStr "status"]);
      ("len", JNum 5);
      ("msb", JNum 3);
      ("options", JObj [("beacon", JNum 0); ("request", JNum 1); ("metadata", JNum 2); ("data", JNum 3); ("status", JNum 4)])]);
    ("descriptor", JObj [
      ("frametypes", JArr [JStr "beacon"; JStr "request"; JStr "metadata"; JStr "data"; JStr "status"]);
      ("len", JNum 2);
      ("msb", JNum 8);
      ("options", JObj [("d16", JNum 0); ("d32", JNum 1); ("d64", JNum 2); ("d128", JNum 3)])]);
    ("stream", JObj [
      ("frametypes", JArr [JStr "beacon"; JStr "request"]);
      ("len", JNum 1);
      ("msb", JNum 11);
      ("options", JObj [("no", JNum 0); ("yes", JNum 1)])]);
    ("transfer", JObj [
      ("frametypes", JArr [JStr "metadata"; JStr "data"]);
      ("len", JNum 2);
      ("msb", JNum 10);
      ("options", JObj [("file", JNum 0); ("directory", JNum 1); ("bundle", JNum 2); ("stream", JNum 3)])]);
    ("reqtstamp", JObj [
      ("frametypes", JArr [JStr "data"; JStr "status"]);
      ("len", JNum 1);
      ("msb", JNum 12);
      ("options", JObj [("no", JNum 0); ("yes", JNum 1)])]);
    ("progress", JObj [
      ("frametypes", JArr [JStr "metadata"]);
      ("len", JNum 1);
      ("msb", JNum 12);
      ("options", JObj [("inprogress", JNum 0); ("terminated", JNum 1)])]);
    ("txwilling", JObj [
      ("frametypes", JArr [JStr "beacon"; JStr "request"]);
      ("len", JNum 2);
      ("msb", JNum 12);
      ("options", JObj [("no", JNum 0); ("invalid", JNum 1); ("capable", JNum 2); ("yes", JNum 3)])]);
    ("metadatarecvd", JObj [
      ("frametypes", JArr [JStr "status"]);
      ("len", JNum 1);
      ("msb", JNum 13);
      ("options", JObj [("yes", JNum 0); ("no", JNum 1)])]);
    ("allholes", JObj [
      ("frametypes", JArr [JStr "status"]);
      ("len", JNum 1);
      ("msb", JNum 14);
      ("options", JObj [("yes", JNum 0); ("no", JNum 1)])]);
    ("reqtype", JObj [
      ("frametypes", JArr [JStr "request"]);
      ("len", JNum 8);
      ("msb", JNum 24);
      ("options", JObj [("noaction", JNum 0); ("get", JNum 1); ("put", JNum 2); ("take", JNum 3); ("give", JNum 4); ("delete", JNum 5); ("getdir", JNum 6)])]);
    ("rxwilling", JObj [
      ("frametypes", JArr [JStr "beacon"; JStr "request"]);
      ("len", JNum 2);
      ("msb", JNum 14);
      ("options", JObj [("no", JNum 0); ("invalid", JNum 1); ("capable", JNum 2); ("yes", JNum 3)])]);
    ("reqholes", JObj [
      ("frametypes", JArr [JStr "status"]);
      ("len", JNum 1);
      ("msb", JNum 15);
      ("options", JObj [("requested", JNum 0); ("voluntarily", JNum 1)])]);
    ("reqstatus", JObj [
      ("frametypes", JArr [JStr "data"]);
      ("len", JNum 1);
      ("msb", JNum 15);
      ("options", JObj [("no", JNum 0); ("yes", JNum 1)])]);
    ("udplite", JObj [
      ("frametypes", JArr [JStr "beacon"; JStr "request"]);
      ("len", JNum 1);
      ("msb", JNum 16);
      ("options", JObj [("no", JNum 0); ("yes", JNum 1)])]);
    ("eod", JObj [
      ("frametypes", JArr [JStr "data"]);
      ("len", JNum 1);
      ("msb", JNum 16);
      ("options", JObj [("no", JNum 0); ("yes", JNum 1)])]);
    ("freespace", JObj [
      ("frametypes", JArr [JStr "beacon"]);
      ("len", JNum 1);
      ("msb", JNum 17);
      ("options", JObj [("no", JNum 0); ("yes", JNum 1)])]);
    ("freespaced", JObj [
      ("frametypes", JArr [JStr "beacon"]);
      ("len", JNum 2);
      ("msb", JNum 18);
      ("options", JObj [("d16", JNum 0); ("d32", JNum 1); ("d64", JNum 2); ("d128", JNum 3)])]);
    ("csumlen", JObj [
      ("frametypes", JArr [JStr "metadata"]);
      ("len", JNum 4);
      ("msb", JNum 24);
      ("options", JObj [("none", JNum 0); ("crc32", JNum 1); ("invalid2", JNum 2); ("invalid3", JNum 3); ("md5", JNum 4); ("sha1", JNum 5)])]);
    ("csumtype", JObj [
      ("frametypes", JArr [JStr "metadata"]);
      ("len", JNum 4);
      ("msb", JNum 28);
      ("options", JObj [("none", JNum 0); ("crc32", JNum 1); ("md5", JNum 2); ("sha1", JNum 3)])]);
    ("reliability", JObj [
      ("frametypes", JArr [JStr "metadata"]);
      ("len", JNum 1);
      ("msb", JNum 13);
      ("options", JObj [("udponly", JNum 0); ("udplite", JNum 1)])]);
    ("errcode", JObj [
      ("frametypes", JArr [JStr "status"]);
      ("len", JNum 8);
      ("msb", JNum 24);
      ("options", JObj [
        ("success", JNum 0);
        ("unspecified", JNum 1);
        ("cantsend", JNum 2);
        ("cantreceive", JNum 3);
        ("filenotfound", JNum 4);
        ("accessdenied", JNum 5);
        ("unknownid", JNum 6);
        ("didnotdelete", JNum 7);
        ("filetobig", JNum 8);
        ("badoffset", JNum 9);
        ("badpacket", JNum 10);
        ("badrequest", JNum 11);
        ("internaltimeout", JNum 12);
        ("baddataflag", JNum 13);
        ("rxnotinterested", JNum 14);
        ("fileinuse", JNum 15);
        ("metadatarequired", JNum 16);
        ("badstatus", JNum 17);
        ("rxtimeout", JNum 18)])])]);
  ("direntflags", JObj [
    ("sod", JObj [
      ("len", JNum 1);
      ("msb", JNum 0);
      ("options", JObj [("sod", JNum 1)])]);
    ("property", JObj [
      ("len", JNum 2);
      ("msb", JNum 6);
      ("options", JObj [("normalfile", JNum 0); ("normaldirectory", JNum 1); ("specialfile", JNum 2); ("specialdirectory", JNum 3)])]);
    ("descriptor", JObj [
      ("len", JNum 2);
      ("msb", JNum 8);
      ("options", JObj [("d16", JNum 0); ("d32", JNum 1); ("d64", JNum 2); ("d128", JNum 3)])]);
    ("reserved", JObj [
      ("len", JNum 1);
      ("msb", JNum 10);
      ("options", JObj [("reserved", JNum 0)])])]);
  ("timestamps", JObj [
    ("len", JNum 8);
    ("msb", JNum 0);
    ("options", JObj [("localinterp", JNum 0); ("posix32", JNum 1); ("posix64", JNum 2); ("posix32_32", JNum 3); ("posix64_32", JNum 4); ("epoch2000_32", JNum 5)])])].

(** What [readconfig] computes from it (no SARDIR in the environment).
    (sarflags/sarflags.go:322-566 ReadConfig on saratoga/saratoga.json) *)
Definition shipped : cliflags * tables * list (string * cmdtype) * error :=
  Eval vm_compute in
    match readconfig "" saratoga_json with
    | Ret r => r
    | _ => (Build_cliflags [] "" "" 0 "" zero_timeouts "" "" 0 "" 0 0,
            Build_tables [] [] zero_ftype [], [], Some "")
    end.

(** The tables and default CLI flags in force after start-up with the shipped file
    (sarflags/sarflags.go:322-566 on saratoga/saratoga.json) *)
Definition sar : tables := Eval vm_compute in snd (fst (fst shipped)).
(** Cliflag (sarflags/sarflags.go:289) after ReadConfig (322-566) on saratoga/saratoga.json *)
Definition sar_cli : cliflags := Eval vm_compute in fst (fst (fst shipped)).
(** Commands (sarflags/sarflags.go:243-264) after ReadConfig (322-566) on saratoga/saratoga.json *)
Definition sar_commands : list (string * cmdtype) := Eval vm_compute in snd (fst shipped).
