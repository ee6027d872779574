(** * Model of sarflags.go: reading the configuration, CLI flags, global flags *)

From Verif Require Import GoBase Flags.
Local Open Scope string_scope.
Local Open Scope N_scope.

(** The result of encoding/json.Unmarshal into interface{}.  Simplification:
    a number, of which only int(..) or uint(..) is used, is that integer, and not negative. An
    object is the list of its entries in the order a range statement visits them. *)
Inductive json :=
| JStr (s : string)
| JNum (n : N)
| JBool (b : bool)
| JNull
| JArr (l : list json)
| JObj (l : list (string * json)).

(** Type assertions value.(T): panic on any other dynamic type (sarflags/sarflags.go:353-524) *)
Definition as_string (j : json) : outcome string := match j with JStr s => Ret s | _ => Panic end.
(** value.(float64) (sarflags/sarflags.go:353-524) *)
Definition as_num (j : json) : outcome N := match j with JNum n => Ret n | _ => Panic end.
(** value.([]interface{}) (sarflags/sarflags.go:353-524) *)
Definition as_arr (j : json) : outcome (list json) := match j with JArr l => Ret l | _ => Panic end.
(** value.(map[string]interface{}) (sarflags/sarflags.go:353-524) *)
Definition as_obj (j : json) : outcome (list (string * json)) := match j with JObj l => Ret l | _ => Panic end.

(** A range loop whose body may panic (sarflags/sarflags.go:353-524) *)
Fixpoint ofold {A S} (f : S -> A -> outcome S) (s : S) (l : list A) : outcome S :=
  match l with
  | [] => Ret s
  | a :: r => do s' <- f s a; ofold f s' r
  end.

(** sarflags.go:183-190 Timeouts *)
Record timeouts := {
  to_metadata : Z; to_request : Z; to_status : Z; to_transfer : Z;
  to_binterval : N; to_datacounter : Z
}.
(** The zero value of Timeouts, sarflags/sarflags.go:183-190 *)
Definition zero_timeouts : timeouts := Build_timeouts 0 0 0 0 0 0.

(** sarflags.go:196-199 Cmdtype *)
Record cmdtype := { c_usage : string; c_help : string }.

(** sarflags.go:271-285 Cliflags; Global is a map *)
Record cliflags := {
  cl_global : list (string * string);
  cl_v4 : string;
  cl_v6 : string;
  cl_port : Z;
  cl_timestamp : string;
  cl_timeout : timeouts;
  cl_timezone : string;
  cl_prompt : string;
  cl_ppad : Z;
  cl_sardir : string;
  cl_buffersize : Z;
  cl_bcount : N
}.

(** sarflags.go:243-264 config and the package variables filled while reading.
    Simplification: the string and number members of the config struct are two
    maps keyed by their json key; a member never assigned has Go's zero value. *)
Record confst := {
  cs_str : list (string * string);
  cs_num : list (string * N);
  cs_timeout : timeouts;
  cs_commands : list (string * cmdtype);
  cs_frameflags : list (string * list string);
  cs_flags : list (string * ftype);
  cs_dirent : list (string * ftype);
  cs_tstamps : ftype
}.
(** sarflags/sarflags.go:243-264, 345-352: before the loop over the top-level object *)
Definition init_confst : confst :=
  {| cs_str := []; cs_num := []; cs_timeout := zero_timeouts; cs_commands := [];
     cs_frameflags := []; cs_flags := []; cs_dirent := []; cs_tstamps := zero_ftype |}.

(** sarflags/sarflags.go:355-393: a member of conf that is a string *)
Definition conf_str (c : confst) (k : string) : string :=
  match lookup k (cs_str c) with Some v => v | None => "" end.
(** sarflags/sarflags.go:355-393: a member of conf that is a number *)
Definition conf_num (c : confst) (k : string) : N :=
  match lookup k (cs_num c) with Some v => v | None => 0 end.

(** sarflags.go:355-393: the members read with value.(string) *)
Definition string_keys : list string :=
  ["v4multicast"; "v6multicast"; "descriptor"; "csumtype"; "freespace"; "txwilling"; "rxwilling";
   "stream"; "reqtstamp"; "reqstatus"; "udplite"; "timestamp"; "timezone"; "sardir"; "prompt"].
(** ... and with int(value.(float64)) or uint(value.(float64)) (sarflags/sarflags.go:355-393) *)
Definition num_keys : list string := ["udpport"; "ppad"; "buffersize"; "bcount"].

(** sarflags.go:394-413 "timeout" *)
Definition read_timer (t : timeouts) (e : string * json) : outcome timeouts :=
  let (k, v) := e in
  let '(Build_timeouts m r s x b d) := t in
  if String.eqb k "metadata" then do n <- as_num v; Ret (Build_timeouts (Z.of_N n) r s x b d)
  else if String.eqb k "request" then do n <- as_num v; Ret (Build_timeouts m (Z.of_N n) s x b d)
  else if String.eqb k "status" then do n <- as_num v; Ret (Build_timeouts m r (Z.of_N n) x b d)
  else if String.eqb k "transfer" then do n <- as_num v; Ret (Build_timeouts m r s (Z.of_N n) b d)
  else if String.eqb k "binterval" then do n <- as_num v; Ret (Build_timeouts m r s x n d)
  else if String.eqb k "datacounter" then do n <- as_num v; Ret (Build_timeouts m r s x b (Z.of_N n))
  else Ret t.

(** sarflags.go:419-426 one command *)
Definition read_cmd_item (c : cmdtype) (e : string * json) : outcome cmdtype :=
  let (k, v) := e in
  if String.eqb k "help" then do s <- as_string v; Ret {| c_usage := c_usage c; c_help := s |}
  else if String.eqb k "usage" then do s <- as_string v; Ret {| c_usage := s; c_help := c_help c |}
  else Ret c.
(** sarflags.go:416-428 "commands" *)
Definition read_cmd (m : list (string * cmdtype)) (e : string * json) : outcome (list (string * cmdtype)) :=
  do info <- as_obj (snd e);
  do ct <- ofold read_cmd_item {| c_usage := ""; c_help := "" |} info;
  Ret (update (fst e) ct m).

(** sarflags.go:434-440 "frameflags": Frameflags[key] = append(Frameflags[key], v) *)
Definition read_frameflag (m : list (string * list string)) (e : string * json)
  : outcome (list (string * list string)) :=
  do info <- as_arr (snd e);
  ofold (fun m v =>
           do s <- as_string v;
           let old := match lookup (fst e) m with Some l => l | None => [] end in
           Ret (update (fst e) (old ++ [s])%list m)) m info.

(** sarflags.go:466-470, 495-499, 516-519: the options of a flag, converted to
    w-bit unsigned *)
Definition read_options (w : N) (j : json) : outcome (list (string * N)) :=
  do o <- as_obj j;
  ofold (fun m (e : string * json) => do n <- as_num (snd e); Ret (update (fst e) (wrap w n) m)) [] o.

(** sarflags.go:452-473 one flag *)
Definition read_flag_item (f : ftype) (e : string * json) : outcome ftype :=
  let (k, v) := e in
  if String.eqb k "frametypes" then
    do l <- as_arr v;
    do ft <- ofold (fun acc v => do s <- as_string v; Ret (acc ++ [s])%list) (f_frametypes f) l;
    Ret {| f_frametypes := ft; f_len := f_len f; f_msb := f_msb f; f_opts := f_opts f |}
  else if String.eqb k "len" then
    do n <- as_num v;
    Ret {| f_frametypes := f_frametypes f; f_len := u32 n; f_msb := f_msb f; f_opts := f_opts f |}
  else if String.eqb k "msb" then
    do n <- as_num v;
    Ret {| f_frametypes := f_frametypes f; f_len := f_len f; f_msb := u32 n; f_opts := f_opts f |}
  else if String.eqb k "options" then
    do o <- read_options 32 v;
    Ret {| f_frametypes := f_frametypes f; f_len := f_len f; f_msb := f_msb f; f_opts := o |}
  else Ret f.
(** sarflags.go:448-476 "flags" *)
Definition read_flag (m : list (string * ftype)) (e : string * json) : outcome (list (string * ftype)) :=
  do info <- as_obj (snd e);
  do f <- ofold read_flag_item zero_ftype info;
  Ret (update (fst e) f m).

(** sarflags.go:487-501 one directory flag (w=16); 508-521 the timestamps (w=8) *)
Definition read_small_item (w : N) (f : ftype) (e : string * json) : outcome ftype :=
  let (k, v) := e in
  if String.eqb k "len" then
    do n <- as_num v;
    Ret {| f_frametypes := []; f_len := wrap w n; f_msb := f_msb f; f_opts := f_opts f |}
  else if String.eqb k "msb" then
    do n <- as_num v;
    Ret {| f_frametypes := []; f_len := f_len f; f_msb := wrap w n; f_opts := f_opts f |}
  else if String.eqb k "options" then
    do o <- read_options w v;
    Ret {| f_frametypes := []; f_len := f_len f; f_msb := f_msb f; f_opts := o |}
  else Ret f.
(** sarflags.go:483-503 "direntflags" *)
Definition read_dflag (m : list (string * ftype)) (e : string * json) : outcome (list (string * ftype)) :=
  do info <- as_obj (snd e);
  do f <- ofold (read_small_item 16) zero_ftype info;
  Ret (update (fst e) f m).

(** sarflags.go:353-524: one iteration of the loop over the top-level object *)
Definition read_key (c : confst) (e : string * json) : outcome confst :=
  let (k, v) := e in
  if one_of k string_keys then
    do s <- as_string v;
    Ret {| cs_str := update k s (cs_str c); cs_num := cs_num c; cs_timeout := cs_timeout c;
           cs_commands := cs_commands c; cs_frameflags := cs_frameflags c; cs_flags := cs_flags c;
           cs_dirent := cs_dirent c; cs_tstamps := cs_tstamps c |}
  else if one_of k num_keys then
    do n <- as_num v;
    Ret {| cs_str := cs_str c; cs_num := update k n (cs_num c); cs_timeout := cs_timeout c;
           cs_commands := cs_commands c; cs_frameflags := cs_frameflags c; cs_flags := cs_flags c;
           cs_dirent := cs_dirent c; cs_tstamps := cs_tstamps c |}
  else if String.eqb k "timeout" then
    do o <- as_obj v; do t <- ofold read_timer (cs_timeout c) o;
    Ret {| cs_str := cs_str c; cs_num := cs_num c; cs_timeout := t;
           cs_commands := cs_commands c; cs_frameflags := cs_frameflags c; cs_flags := cs_flags c;
           cs_dirent := cs_dirent c; cs_tstamps := cs_tstamps c |}
  else if String.eqb k "commands" then
    do o <- as_obj v; do m <- ofold read_cmd (cs_commands c) o;
    Ret {| cs_str := cs_str c; cs_num := cs_num c; cs_timeout := cs_timeout c;
           cs_commands := m; cs_frameflags := cs_frameflags c; cs_flags := cs_flags c;
           cs_dirent := cs_dirent c; cs_tstamps := cs_tstamps c |}
  else if String.eqb k "frameflags" then
    do o <- as_obj v; do m <- ofold read_frameflag (cs_frameflags c) o;
    Ret {| cs_str := cs_str c; cs_num := cs_num c; cs_timeout := cs_timeout c;
           cs_commands := cs_commands c; cs_frameflags := m; cs_flags := cs_flags c;
           cs_dirent := cs_dirent c; cs_tstamps := cs_tstamps c |}
  else if String.eqb k "flags" then
    do o <- as_obj v; do m <- ofold read_flag (cs_flags c) o;
    Ret {| cs_str := cs_str c; cs_num := cs_num c; cs_timeout := cs_timeout c;
           cs_commands := cs_commands c; cs_frameflags := cs_frameflags c; cs_flags := m;
           cs_dirent := cs_dirent c; cs_tstamps := cs_tstamps c |}
  else if String.eqb k "direntflags" then
    do o <- as_obj v; do m <- ofold read_dflag (cs_dirent c) o;
    Ret {| cs_str := cs_str c; cs_num := cs_num c; cs_timeout := cs_timeout c;
           cs_commands := cs_commands c; cs_frameflags := cs_frameflags c; cs_flags := cs_flags c;
           cs_dirent := m; cs_tstamps := cs_tstamps c |}
  else if String.eqb k "timestamps" then
    do o <- as_obj v; do t <- ofold (read_small_item 8) (cs_tstamps c) o;
    Ret {| cs_str := cs_str c; cs_num := cs_num c; cs_timeout := cs_timeout c;
           cs_commands := cs_commands c; cs_frameflags := cs_frameflags c; cs_flags := cs_flags c;
           cs_dirent := cs_dirent c; cs_tstamps := t |}
  else Ret c.

(** the package variables after the loop (sarflags/sarflags.go:243-264, 353-524) *)
Definition tables_of (c : confst) : tables :=
  {| t_flags := cs_flags c; t_dirent := cs_dirent c; t_tstamps := cs_tstamps c;
     t_frameflags := cs_frameflags c |}.

(** sarflags.go:527-557: the Cliflags filled in from conf; [sardir_env] is
    os.Getenv("SARDIR") *)
Definition cli_of (sardir_env : string) (c : confst) : cliflags :=
  {| cl_global :=
       [("csumtype", conf_str c "csumtype"); ("freespace", conf_str c "freespace");
        ("txwilling", conf_str c "txwilling"); ("rxwilling", conf_str c "rxwilling");
        ("stream", conf_str c "stream"); ("reqtstamp", conf_str c "reqtstamp");
        ("reqstatus", conf_str c "reqstatus"); ("udplite", conf_str c "udplite");
        ("descriptor", conf_str c "descriptor")];
     cl_v4 := conf_str c "v4multicast";
     cl_v6 := conf_str c "v6multicast";
     cl_port := Z.of_N (conf_num c "udpport");
     cl_timestamp := conf_str c "timestamp";
     cl_timeout := cs_timeout c;
     cl_timezone := conf_str c "timezone";
     cl_prompt := conf_str c "prompt";
     cl_ppad := Z.of_N (conf_num c "ppad");
     cl_sardir := if String.eqb sardir_env "" then conf_str c "sardir" else sardir_env;
     cl_buffersize := Z.of_N (conf_num c "buffersize");
     cl_bcount := conf_num c "bcount" |}.

(** sarflags.go:559-564: the first (in iteration order) invalid global flag *)
Fixpoint check_globals (T : tables) (g : list (string * string)) : error :=
  match g with
  | [] => None
  | (f, v) :: r => if sf_valid T f v then check_globals T r
                   else Some ("Invalid Flag:" ++ f ++ "=" ++ v)
  end.

(** sarflags.go:322-566 ReadConfig, after the file has been read (Startup.v)
    and parsed (Json.v); getmaxdesc (306-318) is in Startup.v. *)
Definition readconfig (sardir_env : string) (obj : list (string * json))
  : outcome (cliflags * tables * list (string * cmdtype) * error) :=
  do c <- ofold read_key init_confst obj;
  let cli := cli_of sardir_env c in
  let T := tables_of c in
  Ret (cli, T, cs_commands c, check_globals T (cl_global cli)).

(** sarflags.go:630-657 CopyCliflags (nil on error) *)
Definition copy_cliflags (s : cliflags) : option cliflags * error :=
  match cl_global s with
  | [] => (None, Some "no global flags defined in copyflags")
  | _ =>
      (Some {| cl_global := fold_left (fun m (e : string * string) => update (fst e) (snd e) m) (cl_global s) [];
               cl_v4 := cl_v4 s;
               cl_v6 := cl_v4 s;
               cl_port := cl_port s;
               cl_timestamp := cl_timestamp s;
               cl_timeout := cl_timeout s;
               cl_timezone := cl_timezone s;
               cl_prompt := cl_prompt s;
               cl_ppad := cl_ppad s;
               cl_sardir := cl_sardir s;
               cl_buffersize := cl_buffersize s;
               cl_bcount := 0 |}, None)
  end.

(** sarflags.go:775-779: inner loop of Setglobal over the map *)
Fixpoint setglobal_inner (f : string) (g : list (string * string)) (all : list (string * string)) (fs : string) : string :=
  match g with
  | [] => fs
  | (k, _) :: r =>
      setglobal_inner f r all
        (if String.eqb k f
         then fs ++ f ++ "=" ++ (match lookup f all with Some v => v | None => "" end) ++ ","
         else fs)
  end.
(** sarflags.go:769-783 Setglobal *)
Definition sf_setglobal (T : tables) (frametype : string) (c : cliflags) : string :=
  trim_right "," (fold_left (fun fs f => setglobal_inner f (cl_global c) (cl_global c) fs)
                            (sf_values T frametype) "").
