(** * Config: the properties

    Statements only; the proofs are in ConfigMain.v. *)
From Verif Require Import GoBase GoFacts Flags SpecFlags FlagsFacts FlagStrFacts Config Shipped ConfigFacts SpecConfig ReadShape ReadFacts ConfigMain.
Local Open Scope string_scope.
Local Open Scope N_scope.

(** C90: a configuration is read without a panic exactly if every member it has is of the
    right type; absent members and unknown ones do not matter *)
Theorem C90_panics : forall env obj, (readconfig env obj = Panic <-> ~ config_shape (JObj obj)) /\ readconfig env obj <> Fatal.
Proof. exact c90_panics. Qed.
Print Assumptions C90_panics.

(** C90: every setting is the one in the file, and "" or 0 if it is not there; but the
    environment variable SARDIR, if it is not empty, replaces the directory *)
Theorem C90_settings : forall env obj cli T cmds e, distinct (JObj obj) -> readconfig env obj = Ret (cli, T, cmds, e) ->
  let doc := JObj obj in let time := get doc "timeout" in
  (forall f v, lookup f (cl_global cli) = Some v <->
     In f ["csumtype"; "freespace"; "txwilling"; "rxwilling"; "stream"; "reqtstamp"; "reqstatus"; "udplite"; "descriptor"] /\ v = text (get doc f)) /\
  cl_v4 cli = text (get doc "v4multicast") /\ cl_v6 cli = text (get doc "v6multicast") /\ cl_port cli = Z.of_N (num (get doc "udpport")) /\
  cl_timestamp cli = text (get doc "timestamp") /\ cl_timezone cli = text (get doc "timezone") /\
  cl_prompt cli = text (get doc "prompt") /\ cl_ppad cli = Z.of_N (num (get doc "ppad")) /\
  cl_sardir cli = (if String.eqb env "" then text (get doc "sardir") else env) /\
  cl_buffersize cli = Z.of_N (num (get doc "buffersize")) /\ cl_bcount cli = num (get doc "bcount") /\
  to_metadata (cl_timeout cli) = Z.of_N (num (get time "metadata")) /\ to_request (cl_timeout cli) = Z.of_N (num (get time "request")) /\
  to_status (cl_timeout cli) = Z.of_N (num (get time "status")) /\ to_transfer (cl_timeout cli) = Z.of_N (num (get time "transfer")) /\
  to_binterval (cl_timeout cli) = num (get time "binterval") /\ to_datacounter (cl_timeout cli) = Z.of_N (num (get time "datacounter")).
Proof. exact c90_settings. Qed.
Print Assumptions C90_settings.

(** C90: the commands, the fields of the frames and the flags are those of the file, with
    numbers reduced to the width of their type *)
Theorem C90_tables : forall env obj cli T cmds e, distinct (JObj obj) -> readconfig env obj = Ret (cli, T, cmds, e) ->
  let doc := JObj obj in
  reads_map (fun j c => c_help c = text (get j "help") /\ c_usage c = text (get j "usage")) (get doc "commands") cmds /\
  (forall ft, sf_values T ft = map text (elements (get (get doc "frameflags") ft))) /\
  reads_map (fun j f => reads_flag 32 j f /\ f_frametypes f = map text (elements (get j "frametypes"))) (get doc "flags") (t_flags T) /\
  reads_map (reads_flag 16) (get doc "direntflags") (t_dirent T) /\
  reads_flag 8 (get doc "timestamps") (t_tstamps T).
Proof. exact c90_tables. Qed.
Print Assumptions C90_tables.
Example C90_ex : distinct (JObj saratoga_json) /\
  text (get (get (get (JObj saratoga_json) "commands") "ls") "usage") = "ls [<peer> [<dirname>>]]" /\
  num (get (get (get (get (JObj saratoga_json) "flags") "frametype") "options") "status") = 4 /\
  readconfig "" (("prompt", JNum 1) :: saratoga_json) = Panic.
Proof. exact c90_ex. Qed.
