(** * Model of how the program starts *)

From Verif Require Import GoBase Flags Config Shipped Timestamp Data Beacon Fileio Trans Listen Daemon Sarnet Transfer Words Cli Node Table Screen.
Local Open Scope string_scope.
Local Open Scope N_scope.

(** A network interface: its name, MTU, flags as text, and its unicast and multicast addresses, each with
    the name of its network (net.Interface as used in saratoga/saratoga.go:484-530) *)
Record iface := { if_name : string; if_mtu : Z; if_flags : string; if_addrs : list (string * string); if_maddrs : list (string * string) }.
(** What a socket can be asked for (sarnet/sarnet.go:102-125, saratoga/saratoga.go:531-560) *)
Inductive sockopt := LoopV4 | LoopV6 | ReuseAddr | ReusePort.
(** The system a program is started on: its arguments with its own name first, the variable SARDIR ("" if unset), the
    files and the working directory; and what package json and the system answer:
    the object a text is, statfs, net.InterfaceByName (the MTU), gocui.NewGui, net.Interfaces,
    net.ParseIP (as text, "" for none), net.ListenMulticastUDP on an interface (the local address of the
    socket), setsockopt (saratoga/saratoga.go:439-600) *)
Record host := {
  h_args : list string; h_sardir : string; h_fs : fsys; h_cwd : path;
  h_json : list byte -> option (list (string * json));
  h_statfs : path -> statfs;
  h_find : string -> option Z;
  h_gui : bool;
  h_ifaces : option (list iface);
  h_ip : string -> string;
  h_join : family -> string -> string -> Z -> option string;
  h_opt : family -> sockopt -> bool }.

(** Why the program did not start, with the name that the message gives: wrong arguments; the configuration cannot be
    used; a value of a wrong type in it; no working directory; it cannot be looked up; no such interface; no terminal;
    the interfaces cannot be listed; a multicast group cannot be joined; its socket cannot be set up
    (saratoga/saratoga.go:439-600) *)
Inductive halt :=
| Usage | BadConfig (config : string) | ConfigPanic | NoSardir (name : string) | NoStat | NoInterface (named : string)
| NoTerminal | NoInterfaces | NoGroup (f : family) (ip : string) (port : Z) | NoLoop (f : family).
(** The exit status: main returns (0), log.Fatal (1) or a panic (2) (saratoga/saratoga.go:439-740) *)
Definition exit_status (h : halt) : N :=
  match h with Usage | BadConfig _ => 0 | ConfigPanic => 2 | _ => 1 end.

(** sarflags/sarflags.go:306-318 getmaxdesc, over the largest uint *)
Definition getmaxdesc (max_uint : N) : string * bool :=
  if max_uint =? 2 ^ 16 - 1 then ("d16", true)
  else if max_uint =? 2 ^ 32 - 1 then ("d32", true)
  else if max_uint =? 2 ^ 64 - 1 then ("d64", true)
  else ("d128", false).
(** sarflags/sarflags.go:164 MaxUint, on a 64-bit platform *)
Definition max_uint : N := 2 ^ 64 - 1.

(** os.ReadFile (sarflags/sarflags.go:322-338) *)
Definition read_file (fs : fsys) (cwd : path) (name : string) : option (list byte) :=
  match resolve_follow fs cwd name with inl p => content_of fs p | inr _ => None end.
(** sarflags/sarflags.go:322-566 ReadConfig with the reading of its file *)
Definition load_config (h : host) (name : string) : outcome (option (cliflags * tables * list (string * cmdtype))) :=
  if snd (getmaxdesc max_uint) then
    match read_file (h_fs h) (h_cwd h) name with
    | None => Ret None
    | Some text =>
        match h_json h text with
        | None => Ret None
        | Some obj =>
            do ' (cli, T, cmds, err) <- readconfig (h_sardir h) obj;
            Ret (match err with None => Some (cli, T, cmds) | Some _ => None end)
        end
    end
  else Ret None.

(** os.Chdir: the new working directory (saratoga/saratoga.go:470) *)
Definition chdir (fs : fsys) (cwd : path) (name : string) : option path :=
  match resolve_follow fs cwd name with
  | inl p => match fs_get p fs with Some n => if is_dir n then Some p else None | None => None end
  | inr _ => None
  end.
(** syscall.Statfs: of whatever the name is of (sarsys/sys_linux.go:21-26) *)
Definition statfs_of (h : host) (cwd : path) (name : string) : option statfs :=
  match resolve_follow (h_fs h) cwd name with
  | inl p => match fs_get p (h_fs h) with Some _ => Some (h_statfs h p) | None => None end
  | inr _ => None
  end.

(** sarnet/sarnet.go:102-125 SetMulticastLoop, given the local address of the socket *)
Definition set_multicast_loop (opt : sockopt -> bool) (local : string) : bool :=
  if is_ipv4 local then opt LoopV4 && opt ReuseAddr && opt ReusePort
  else if is_ipv6 local then opt LoopV6 && opt ReuseAddr && opt ReusePort
  else false.

(** strings.Contains (saratoga/saratoga.go:516, 523) *)
Fixpoint has_text (w s : string) : bool :=
  prefix w s || match s with EmptyString => false | String _ r => has_text w r end.
(** saratoga/saratoga.go:510-530: what is shown about the interface.  An MTU is not negative. *)
Definition iface_lines (ifname : string) (i : iface) : list clabel :=
  if (if_name i =? ifname)%string then
    CPrint VMsg true "green_black" (if_name i ++ " MTU " ++ itoa (Z.to_N (if_mtu i)) ++ " " ++ if_flags i ++ ":")
    :: (map (fun a => CPrint VMsg true "green_black" (String (ascii_of_N 9) " Unicast " ++ fst a ++ " " ++ snd a)) (filter (fun a => has_text "ip" (snd a)) (if_addrs i))
    ++ map (fun a => CPrint VMsg true "green_black" ("Multicast " ++ fst a ++ " Net:" ++ snd a)) (filter (fun a => has_text "ip" (snd a)) (if_maddrs i)))%list
  else [].

(** saratoga/saratoga.go:563-596: what is shown before the listeners are started *)
Definition group (h : host) (cli : cliflags) (f : family) : udpaddr :=
  {| ua_ip := h_ip h (match f with V4 => cl_v4 cli | V6 => cl_v6 cli end); ua_port := Z.to_N (cl_port cli); ua_zone := "" |}.
(** saratoga/saratoga.go:563-581: what is shown at the start *)
Definition banner (h : host) (cli : cliflags) (st : statfs) : list clabel :=
  CPrint VMsg false "green_black" ("Saratoga Directory is " ++ cl_sardir cli ++ newline)
  :: CPrint VMsg false "green_black" ("Available space is " ++ itoa (u64 (u64_of_Z (sf_bsize st) * sf_bavail st) / 1024 / 1024) ++ " MB" ++ newline)
  :: (map (fun '(name, n) => CPrint VMsg true "green_black" (name ++ "=" ++ itoa n))
        [("MaxInt", 2 ^ 63 - 1); ("MaxUint", max_uint); ("MaxInt16", 2 ^ 15 - 1); ("MaxUint16", 2 ^ 16 - 1);
         ("MaxInt32", 2 ^ 31 - 1); ("MaxUint32", 2 ^ 32 - 1); ("MaxInt64", 2 ^ 63 - 1); ("MaxUint64", 2 ^ 64 - 1)]
      ++ [CPrint VMsg true "green_black" ("Maximum Descriptor is:" ++ fst (getmaxdesc max_uint));
          CPrint VMsg true "white_black" "^P - Toggle Packet View";
          CPrint VMsg true "white_black" "^Space - Rotate/Change View";
          CPrint VMsg true "green_black" ("Saratoga IPv6 Multicast Listener started on " ++ udpaddr_string (group h cli V6));
          CPrint VMsg true "green_black" ("Saratoga IPv4 Multicast Listener started on " ++ udpaddr_string (group h cli V4))])%list.

(** A program that has started: the process, the MTU, what its user interface was given to show and its prompt,
    the groups its listeners have joined on the interface (saratoga/saratoga.go:439-604) *)
Record running := {
  r_node : Node.node; r_mtu : Z; r_prompt : string; r_shown : list clabel;
  r_iface : string; r_tables : tables; r_commands : list (string * cmdtype); r_group : family -> udpaddr }.
(** The process: nothing has been received or typed (saratoga/saratoga.go:582-604) *)
Definition fresh_node (fs : fsys) (cwd : path) (cli : cliflags) : Node.node :=
  {| n_net := start fs;
     n_cli := {| y_cli := cli; y_beacon := no_beaconcmd; y_tran := {| is_table := []; is_session := 0; is_fs := fs; is_cwd := cwd |};
                 y_peers := []; y_exit := (-1)%Z; y_tasks := []; y_chans := []; y_sent := []; y_shown := []; y_dead := false |} |}.

(** saratoga/saratoga.go:531-560: one of the two groups *)
Definition listen_on (h : host) (cli : cliflags) (ifname : string) (f : family) : option halt :=
  let g := group h cli f in
  match h_join h f ifname (ua_ip g) (cl_port cli) with
  | None => Some (NoGroup f (ua_ip g) (cl_port cli))
  | Some local => if set_multicast_loop (h_opt h f) local then None else Some (NoLoop f)
  end.

(** saratoga/saratoga.go:439-600 main, up to its loop *)
Definition startup (h : host) : running + halt :=
  match h_args h with
  | [_; config; ifname] =>
      match load_config h config with
      | Ret (Some (cli, T, cmds)) =>
          match chdir (h_fs h) (h_cwd h) (cl_sardir cli) with
          | None => inr (NoSardir (cl_sardir cli))
          | Some cwd =>
              match statfs_of h cwd (cl_sardir cli) with
              | None => inr NoStat
              | Some st =>
                  match h_find h ifname with
                  | None => inr (NoInterface config) (* os.Args[argnumb-1] *)
                  | Some mtu =>
                      if negb (h_gui h) then inr NoTerminal
                      else match h_ifaces h with
                      | None => inr NoInterfaces
                      | Some ifs =>
                          match listen_on h cli ifname V6 with
                          | Some e => inr e
                          | None =>
                              match listen_on h cli ifname V4 with
                              | Some e => inr e
                              | None =>
                                  inl {| r_node := fresh_node (h_fs h) cwd cli; r_mtu := mtu; r_prompt := cl_prompt cli;
                                         r_shown := (flat_map (iface_lines ifname) ifs ++ banner h cli st)%list;
                                         r_iface := ifname; r_tables := T; r_commands := cmds; r_group := group h cli |}
                              end
                          end
                      end
                  end
              end
          end
      | Ret None => inr (BadConfig config)
      | _ => inr ConfigPanic
      end
  | _ => inr Usage
  end.
