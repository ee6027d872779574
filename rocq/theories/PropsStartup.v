(** * Startup: the properties

    Statements only; the proofs are in StartupMain.v. *)
From Verif Require Import GoBase Flags Config SpecFlags SpecConfig ConfigMain ConfigFacts Shipped Timestamp Fileio SpecFileio FileioFacts FlagStrFacts Trans Listen Daemon SpecDaemon Sarnet Transfer Cli Node SpecNode Screen Startup SpecStartup StartupMain.
Local Open Scope string_scope.
Local Open Scope N_scope.

(** C110: The program starts exactly if it has its two arguments, the configuration is usable, its directory is found twice,
    once from where the program is started and once from within that directory, the interface exists, and the terminal
    and both multicast groups can be used.  Otherwise it says which of these, in this order, failed first. *)
Theorem C110_starts : forall h,
  ((exists r, startup h = inl r) <-> can_start h) /\
  (forall e, startup h = inr e <-> refuses h e).
Proof. exact c110_starts. Qed.
Print Assumptions C110_starts.
Example C110_starts_ex :
  (exists r, startup (ex_host ["saratoga"; "c.json"; "eth0"] "") = inl r) /\
  startup (ex_host ["saratoga"; "c.json"; "eth1"] "") = inr (NoInterface "c.json") /\
  startup (ex_host ["saratoga"; "c.json"; "eth0"] "Users") = inr NoStat /\
  startup (ex_host ["saratoga"; "c.json"; "eth0"] "/nowhere") = inr (NoSardir "/nowhere") /\
  startup (ex_host ["saratoga"; "d.json"; "eth0"] "") = inr (BadConfig "d.json") /\
  startup (ex_host ["saratoga"] "") = inr Usage.
Proof. exact c110_starts_ex. Qed.

(** C110: A directory given by its absolute name is found the second time if it was the first time.  One that is
    given by a plain name is found again only if there is something of that name in it: otherwise the program does not start. *)
Theorem C110_sardir : forall h config ifname cli, configured h config ifname cli ->
  (is_abs (cl_sardir cli) = true -> forall d, housed h cli d <-> names_dir (h_fs h) (h_cwd h) (cl_sardir cli) d) /\
  (plain (cl_sardir cli) ->
   (exists n, fs_get (h_cwd h) (h_fs h) = Some n /\ is_dir n = true) ->
   (exists n, fs_get (h_cwd h ++ [cl_sardir cli])%list (h_fs h) = Some n /\ is_dir n = true) ->
   (startup h = inr NoStat <-> forall p, ~ names (h_fs h) (h_cwd h ++ [cl_sardir cli])%list (cl_sardir cli) p) /\
   (fs_get (h_cwd h ++ [cl_sardir cli; cl_sardir cli])%list (h_fs h) = None -> startup h = inr NoStat)).
Proof. exact c110_sardir. Qed.
Print Assumptions C110_sardir.
Example C110_sardir_ex :
  (exists cli, configured (ex_host ["saratoga"; "c.json"; "eth0"] "Users") "c.json" "eth0" cli /\ cl_sardir cli = "Users" /\ plain "Users") /\
  fs_get ["Users"; "Users"] ex_disk = None.
Proof. exact c110_sardir_ex. Qed.

(** C110: With wrong arguments or an unusable configuration the program ends with exit status 0, as if all were well; if the
    interface does not exist, the message names the configuration file in its place. *)
Theorem C110_misleading : forall h e, startup h = inr e ->
  (exit_status e = 0 <-> e = Usage \/ exists config, e = BadConfig config) /\
  (forall named, e = NoInterface named -> exists prog ifname, h_args h = [prog; named; ifname] /\ h_find h ifname = None).
Proof. exact c110_misleading. Qed.
Print Assumptions C110_misleading.

(** C111: A program that starts listens on the given interface for the groups and the port of its configuration, takes
    the MTU of that interface, works in its directory, and shows this about itself. *)
Theorem C111_started : forall h r, startup h = inl r ->
  exists config ifname cli d mtu p ifs, configured h config ifname cli /\ names_dir (h_fs h) (h_cwd h) (cl_sardir cli) d /\
    names (h_fs h) d (cl_sardir cli) p /\ h_find h ifname = Some mtu /\ h_ifaces h = Some ifs /\
    r_mtu r = mtu /\ r_iface r = ifname /\ r_prompt r = cl_prompt cli /\
    (forall f, r_group r f = {| ua_ip := h_ip h (match f with V4 => cl_v4 cli | V6 => cl_v6 cli end); ua_port := Z.to_N (cl_port cli); ua_zone := "" |}) /\
    node_setup (r_mtu r) (r_node r) = the_daemon mtu d (cl_sardir cli) /\
    y_cli (n_cli (r_node r)) = cli /\ w_fs (ds_world (n_net (r_node r))) = h_fs h /\ is_fs (y_tran (n_cli (r_node r))) = h_fs h /\
    n_dead (r_node r) = false /\ heard_by (r_node r) = [] /\ y_tasks (n_cli (r_node r)) = [] /\
    let st := h_statfs h p in
    (0 <= sf_bsize st < 2 ^ 63)%Z -> Z.to_N (sf_bsize st) * sf_bavail st < 2 ^ 64 ->
    exists about, r_shown r = (about ++ introduction (cl_sardir cli) (Z.to_N (sf_bsize st) * sf_bavail st / 1048576) (r_group r V6) (r_group r V4))%list /\
      interface_lines ifname ifs about.
Proof. exact c111_started. Qed.
Print Assumptions C111_started.

(** C111: Started with the shipped configuration, it is in the state from which the other theorems about runs of the whole
    program begin. *)
Theorem C111_shipped : forall h r prog config ifname, startup h = inl r -> h_args h = [prog; config; ifname] -> h_sardir h = "" -> holds h config saratoga_json ->
  exists d, names_dir (h_fs h) (h_cwd h) "/Users/chas/sardir" d /\ r_node r = nstart (h_fs h) d /\ runs_to (r_mtu r) (r_node r).
Proof. exact c111_shipped. Qed.
Print Assumptions C111_shipped.
Example C111_started_ex :
  match startup (ex_host ["saratoga"; "c.json"; "eth0"] "") with
  | inl r => r_mtu r = 1500%Z /\ is_cwd (y_tran (n_cli (r_node r))) = ["Users"; "chas"; "sardir"] /\ r_group r V4 = {| ua_ip := "224.0.0.108"; ua_port := 7542; ua_zone := "" |} /\
      nth_error (r_shown r) 1 = Some (CPrint VMsg false "green_black" ("Available space is 1953 MB" ++ line_end))
  | inr _ => False
  end.
Proof. exact c111_started_ex. Qed.
