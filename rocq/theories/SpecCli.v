(** * Specification vocabulary for the command line *)

From Verif Require Import GoBase Flags SpecFlags Config Shipped Data SpecFrames Beacon Transfer Words SpecWords Cli.
Local Open Scope string_scope.
Local Open Scope N_scope.

(** The commands of the manual *)
Definition command_names : list string :=
  ["?"; "bcount"; "beacon"; "cancel"; "checksum"; "clear"; "delete"; "descriptor"; "exit"; "files"; "freespace"; "get"; "getdir";
   "give"; "help"; "history"; "home"; "interval"; "ls"; "peers"; "put"; "putblind"; "quit"; "reqtstamp"; "rmtran"; "rxwilling";
   "stream"; "take"; "timeout"; "timestamp"; "timezone"; "tran"; "txwilling"; "usage"].

(** The line asks for [ws] *)
Definition asks (line : string) (ws : list string) : Prop := exists text, typed line text /\ words_of text ws.

(** ** Settings *)

(** One thing that can be set *)
Inductive knob :=
| Flag (name : string) | Stamp | Zone | Timer (name : string) | Interval | Count
| Group4 | Group6 | Port | Prompt | Pad | Directory | Buffer.
Inductive kval := KText (s : string) | KNum (n : Z) | KNone.
Definition timer (t : timeouts) (name : string) : kval :=
  match lookup name [("metadata", to_metadata t); ("request", to_request t); ("status", to_status t); ("transfer", to_transfer t);
                     ("datacounter", to_datacounter t)] with
  | Some n => KNum n
  | None => KNone
  end.
Definition value (c : cliflags) (k : knob) : kval :=
  match k with
  | Flag f => match lookup f (cl_global c) with Some v => KText v | None => KNone end
  | Stamp => KText (cl_timestamp c)
  | Zone => KText (cl_timezone c)
  | Timer name => timer (cl_timeout c) name
  | Interval => KNum (Z.of_N (to_binterval (cl_timeout c)))
  | Count => KNum (Z.of_N (cl_bcount c))
  | Group4 => KText (cl_v4 c) | Group6 => KText (cl_v6 c) | Port => KNum (cl_port c) | Prompt => KText (cl_prompt c)
  | Pad => KNum (cl_ppad c) | Directory => KText (cl_sardir c) | Buffer => KNum (cl_buffersize c)
  end.

(** Command, argument, what it sets *)
Definition choices : list (string * string * list (knob * string)) :=
  [("checksum", "off", [(Flag "csumtype", "none")]); ("checksum", "none", [(Flag "csumtype", "none")]);
   ("checksum", "crc32", [(Flag "csumtype", "crc32")]); ("checksum", "md5", [(Flag "csumtype", "md5")]);
   ("checksum", "sha1", [(Flag "csumtype", "sha1")]);
   ("descriptor", "auto", [(Flag "descriptor", "d64")]); ("descriptor", "d16", [(Flag "descriptor", "d16")]);
   ("descriptor", "d32", [(Flag "descriptor", "d32")]); ("descriptor", "d64", [(Flag "descriptor", "d64")]);
   ("freespace", "yes", [(Flag "freespace", "yes")]); ("freespace", "no", [(Flag "freespace", "no")]);
   ("reqtstamp", "yes", [(Flag "reqtstamp", "yes")]); ("reqtstamp", "no", [(Flag "reqtstamp", "no")]);
   ("rxwilling", "on", [(Flag "rxwilling", "yes")]); ("rxwilling", "off", [(Flag "rxwilling", "no")]);
   ("rxwilling", "capable", [(Flag "rxwilling", "capable")]);
   ("stream", "yes", [(Flag "stream", "yes")]); ("stream", "no", [(Flag "stream", "no")]);
   ("timestamp", "off", [(Flag "reqtstamp", "no")]);
   ("timestamp", "32", [(Flag "reqtstamp", "yes"); (Stamp, "posix32")]);
   ("timestamp", "32_32", [(Flag "reqtstamp", "yes"); (Stamp, "posix32_32")]);
   ("timestamp", "64", [(Flag "reqtstamp", "yes"); (Stamp, "posix64")]);
   ("timestamp", "64_32", [(Flag "reqtstamp", "yes"); (Stamp, "posix64_32")]);
   ("timestamp", "32_y2k", [(Flag "reqtstamp", "yes"); (Stamp, "epoch2000_32")]);
   ("timestamp", "local", [(Flag "reqtstamp", "yes"); (Stamp, "localinterp")]);
   ("timezone", "local", [(Zone, "local")]); ("timezone", "utc", [(Zone, "utc")]);
   ("txwilling", "on", [(Flag "txwilling", "on")]); ("txwilling", "off", [(Flag "txwilling", "off")]);
   ("txwilling", "capable", [(Flag "txwilling", "capable")])].
(** The text is a number that is not negative and fits an int *)
Definition counts (text : string) (n : Z) : Prop := signed (bytes_of text) n /\ (0 <= n < 2 ^ 63)%Z.
Definition timer_names : list string := ["metadata"; "request"; "status"; "transfer"; "datacounter"].

(** With the settings [c], the words [ws] set [k] to [v] *)
Inductive orders (c : cliflags) : list string -> knob -> kval -> Prop :=
| or_choice : forall cmd a l k v, In (cmd, a, l) choices -> In (k, v) l -> orders c [cmd; a] k (KText v)
| or_count : forall a n, counts a n -> orders c ["bcount"; a] Count (KNum n)
| or_interval : forall a n, counts a n -> orders c ["interval"; a] Interval (KNum n)
| or_interval_off : orders c ["interval"; "off"] Interval (KNum 0)
| or_timer : forall name a n, In name timer_names -> counts a n -> (name = "datacounter" -> n <> 0%Z) ->
    orders c ["timeout"; name; a] (Timer name) (KNum n)
| or_timer_off : forall name, In name timer_names -> name <> "datacounter" -> orders c ["timeout"; name; "off"] (Timer name) (KNum 60)
(* 100 stands for a data counter that is not set *)
| or_counter_off : orders c ["timeout"; "datacounter"; "off"] (Timer "datacounter") (KNum 100)
| or_counter_zero : forall a, counts a 0 -> orders c ["timeout"; "datacounter"; a] (Timer "datacounter") (KNum 100)
| or_counter_look : value c (Timer "datacounter") = KNum 0 -> orders c ["timeout"] (Timer "datacounter") (KNum 100)
| or_counter_look1 : value c (Timer "datacounter") = KNum 0 -> orders c ["timeout"; "datacounter"] (Timer "datacounter") (KNum 100).

(** The command with these words is understood *)
Inductive understood : list string -> Prop :=
| un_look : forall cmd, understood [cmd]
| un_help : forall cmd, understood [cmd; "?"]
| un_timer : forall name, In name timer_names -> understood ["timeout"; name]
| un_orders : forall c ws k v, orders c ws k v -> understood ws
(* these two are turned down, but not as errors *)
| un_d128 : understood ["descriptor"; "d128"]
| un_off : forall x, understood ["timeout"; x; "off"].

Definition is_error (x : shown) : bool := match x with Text WErr _ => true | _ => false end.

(** What is said about a timer *)
Definition timer_text (name : string) (n : Z) : string :=
  if String.eqb name "datacounter" then "datacounter:" ++ zitoa n ++ " frames"
  else if (n =? 0)%Z then name ++ ":No Timeout" else name ++ ":" ++ zitoa n ++ " sec".
