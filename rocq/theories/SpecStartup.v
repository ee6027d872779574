(** * Specification: when the program starts, and with what *)

From Verif Require Import GoBase Flags Config Shipped Timestamp Fileio SpecFileio Trans Listen Daemon Sarnet Cli Node Screen Startup.
Local Open Scope string_scope.
Local Open Scope N_scope.

(** Seen from directory [cwd], [name] is the name of [p], which exists *)
Definition names (fs : fsys) (cwd : path) (name : string) (p : path) : Prop :=
  resolve_follow fs cwd name = inl p /\ exists n, fs_get p fs = Some n.
Definition names_dir (fs : fsys) (cwd : path) (name : string) (p : path) : Prop :=
  resolve_follow fs cwd name = inl p /\ exists n, fs_get p fs = Some n /\ is_dir n = true.
(** The file [config], seen from where the program is started, is the JSON text of an object *)
Definition holds (h : host) (config : string) (obj : list (string * json)) : Prop :=
  exists p n text, resolve_follow (h_fs h) (h_cwd h) config = inl p /\ fs_get p (h_fs h) = Some n /\ n_kind n = KFile text /\ h_json h text = Some obj.
(** and gives settings that are all valid *)
Definition configures (h : host) (config : string) (cli : cliflags) : Prop :=
  exists obj T cmds, holds h config obj /\ readconfig (h_sardir h) obj = Ret (cli, T, cmds, None).
(** The program can join the multicast group of its settings on the interface, and gets what it asks of
    the socket, which must have the address of an IPv4 or of an IPv6 socket *)
Definition listens (h : host) (cli : cliflags) (ifname : string) (f : family) : Prop :=
  exists local loop, h_join h f ifname (h_ip h (match f with V4 => cl_v4 cli | V6 => cl_v6 cli end)) (cl_port cli) = Some local /\
    (count_byte "." local = 3%nat /\ loop = LoopV4 \/ count_byte "." local <> 3%nat /\ (2 <= count_byte ":" local)%nat /\ loop = LoopV6) /\
    h_opt h f loop = true /\ h_opt h f ReuseAddr = true /\ h_opt h f ReusePort = true.
(** The program is started with two arguments, of which the first is a usable configuration *)
Definition configured (h : host) (config ifname : string) (cli : cliflags) : Prop :=
  (exists prog, h_args h = [prog; config; ifname]) /\ configures h config cli.
(** Its directory exists, from where it is started and again from within *)
Definition housed (h : host) (cli : cliflags) (d : path) : Prop :=
  names_dir (h_fs h) (h_cwd h) (cl_sardir cli) d /\ exists p, names (h_fs h) d (cl_sardir cli) p.

(** Why it does not start: the first of these, in this order *)
Inductive refuses (h : host) : halt -> Prop :=
| no_arguments : (forall prog config ifname, h_args h <> [prog; config; ifname]) -> refuses h Usage
| no_config : forall prog config ifname, h_args h = [prog; config; ifname] ->
    (forall obj, holds h config obj -> exists cli T cmds e, readconfig (h_sardir h) obj = Ret (cli, T, cmds, Some e)) ->
    refuses h (BadConfig config)
| bad_type : forall prog config ifname obj, h_args h = [prog; config; ifname] -> holds h config obj ->
    readconfig (h_sardir h) obj = Panic -> refuses h ConfigPanic
| no_sardir : forall config ifname cli, configured h config ifname cli ->
    (forall d, ~ names_dir (h_fs h) (h_cwd h) (cl_sardir cli) d) -> refuses h (NoSardir (cl_sardir cli))
| no_stat : forall config ifname cli d, configured h config ifname cli -> names_dir (h_fs h) (h_cwd h) (cl_sardir cli) d ->
    (forall p, ~ names (h_fs h) d (cl_sardir cli) p) -> refuses h NoStat
| no_interface : forall config ifname cli d, configured h config ifname cli -> housed h cli d ->
    h_find h ifname = None -> refuses h (NoInterface config)
| no_terminal : forall config ifname cli d, configured h config ifname cli -> housed h cli d ->
    h_find h ifname <> None -> h_gui h = false -> refuses h NoTerminal
| no_interfaces : forall config ifname cli d, configured h config ifname cli -> housed h cli d ->
    h_find h ifname <> None -> h_gui h = true -> h_ifaces h = None -> refuses h NoInterfaces
| no_group6 : forall config ifname cli d, configured h config ifname cli -> housed h cli d ->
    h_find h ifname <> None -> h_gui h = true -> h_ifaces h <> None ->
    h_join h V6 ifname (h_ip h (cl_v6 cli)) (cl_port cli) = None -> refuses h (NoGroup V6 (h_ip h (cl_v6 cli)) (cl_port cli))
| no_loop6 : forall config ifname cli d, configured h config ifname cli -> housed h cli d ->
    h_find h ifname <> None -> h_gui h = true -> h_ifaces h <> None ->
    h_join h V6 ifname (h_ip h (cl_v6 cli)) (cl_port cli) <> None -> ~ listens h cli ifname V6 -> refuses h (NoLoop V6)
| no_group4 : forall config ifname cli d, configured h config ifname cli -> housed h cli d ->
    h_find h ifname <> None -> h_gui h = true -> h_ifaces h <> None -> listens h cli ifname V6 ->
    h_join h V4 ifname (h_ip h (cl_v4 cli)) (cl_port cli) = None -> refuses h (NoGroup V4 (h_ip h (cl_v4 cli)) (cl_port cli))
| no_loop4 : forall config ifname cli d, configured h config ifname cli -> housed h cli d ->
    h_find h ifname <> None -> h_gui h = true -> h_ifaces h <> None -> listens h cli ifname V6 ->
    h_join h V4 ifname (h_ip h (cl_v4 cli)) (cl_port cli) <> None -> ~ listens h cli ifname V4 -> refuses h (NoLoop V4).

(** All of it works out *)
Definition can_start (h : host) : Prop :=
  exists config ifname cli d, configured h config ifname cli /\ housed h cli d /\ h_find h ifname <> None /\ h_gui h = true /\ h_ifaces h <> None /\
    listens h cli ifname V6 /\ listens h cli ifname V4.
(** A line in the message window *)
Definition says (colour text : string) : clabel := CPrint VMsg true colour text.
Definition line_end : string := String (ascii_of_N 10) "".
(** The text [w] occurs in [s] *)
Definition occurs (w s : string) : Prop := exists a b, s = a ++ w ++ b.
(** One line for each address of an IP network, in order; nothing for the other addresses.  An address is its text and
    the name of its network. *)
Inductive address_lines (line : string -> string -> string) : list (string * string) -> list clabel -> Prop :=
| al_none : address_lines line [] []
| al_ip : forall a net r l, occurs "ip" net -> address_lines line r l -> address_lines line ((a, net) :: r) (says "green_black" (line a net) :: l)
| al_other : forall a net r l, ~ occurs "ip" net -> address_lines line r l -> address_lines line ((a, net) :: r) l.
Definition tab : string := String (ascii_of_N 9) "".
(** What is shown about the interfaces of the host: the chosen one, with its addresses *)
Inductive interface_lines (ifname : string) : list iface -> list clabel -> Prop :=
| il_none : interface_lines ifname [] []
| il_other : forall i r l, if_name i <> ifname -> interface_lines ifname r l -> interface_lines ifname (i :: r) l
| il_this : forall i r u m l, if_name i = ifname ->
    address_lines (fun a net => tab ++ " Unicast " ++ a ++ " " ++ net) (if_addrs i) u ->
    address_lines (fun a net => "Multicast " ++ a ++ " Net:" ++ net) (if_maddrs i) m ->
    interface_lines ifname r l ->
    interface_lines ifname (i :: r) (says "green_black" (ifname ++ " MTU " ++ itoa (Z.to_N (if_mtu i)) ++ " " ++ if_flags i ++ ":") :: u ++ m ++ l)%list.
(** What a program that starts shows about itself *)
Definition introduction (sardir : string) (megabytes : N) (group6 group4 : udpaddr) : list clabel :=
  [CPrint VMsg false "green_black" ("Saratoga Directory is " ++ sardir ++ line_end);
   CPrint VMsg false "green_black" ("Available space is " ++ itoa megabytes ++ " MB" ++ line_end);
   says "green_black" "MaxInt=9223372036854775807";
   says "green_black" "MaxUint=18446744073709551615";
   says "green_black" "MaxInt16=32767";
   says "green_black" "MaxUint16=65535";
   says "green_black" "MaxInt32=2147483647";
   says "green_black" "MaxUint32=4294967295";
   says "green_black" "MaxInt64=9223372036854775807";
   says "green_black" "MaxUint64=18446744073709551615";
   says "green_black" "Maximum Descriptor is:d64";
   says "white_black" "^P - Toggle Packet View";
   says "white_black" "^Space - Rotate/Change View";
   says "green_black" ("Saratoga IPv6 Multicast Listener started on " ++ udpaddr_string group6);
   says "green_black" ("Saratoga IPv4 Multicast Listener started on " ++ udpaddr_string group4)].
