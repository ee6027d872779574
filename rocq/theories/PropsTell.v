(** * Tell: the properties

    Statements only; the proofs are in TellMain.v. *)
From Verif Require Import GoBase GoFacts Flags SpecFlags FlagsFacts Config Shipped Timestamp Data SpecFrames Beacon SpecBeacon Fileio Trans Sarnet BuildFacts Transfer SpecTransfer TransferMain SpecSend Words SpecWords WordsFacts Cli SpecCli TextFacts CliFacts CliFacts2 CliMain SpecRun RunFacts RunMain SpecShow ShowMain SpecTell TellMain.
Local Open Scope string_scope.
Local Open Scope N_scope.

(** C136: alone, a command on the settings tells the setting *)
Theorem C136_alone : forall name f c, lookup name setting_commands = Some f ->
  exists l, lookup name (answers c) = Some l /\ snd (f c [name]) = map (Text WMsg) l.
Proof. exact c136_alone. Qed.
Print Assumptions C136_alone.

(** C136: what a command says after it has set something *)
Theorem C136_done : forall name f c rest k v, lookup name setting_commands = Some f -> rest <> [] -> orders c (name :: rest) k v ->
  (forall a, rest = ["datacounter"; a] -> ~ counts a 0) ->
  snd (f c (name :: rest)) = map (Text WMsg) (confirms (name :: rest) v).
Proof. exact c136_done. Qed.
Print Assumptions C136_done.

(** C136: a data counter of 0 is said to be the default *)
Theorem C136_default : forall c a, counts a 0 -> snd (cmd_timeout c ["timeout"; "datacounter"; a]) = [Text WMsg "datacounter:Default set to every 100 frames"].
Proof. exact c136_default. Qed.
Print Assumptions C136_default.

(** C136: what it says to words it does not understand *)
Theorem C136_refused : forall name f c rest, lookup name setting_commands = Some f -> ~ understood (name :: rest) ->
  snd (f c (name :: rest)) = complains c name rest.
Proof. exact c136_refused. Qed.
Print Assumptions C136_refused.

(** C136: two requests are turned down without an error: 128 bit descriptors, and to switch
    off a timer that does not exist, to which nothing at all is said (defect) *)
Theorem C136_silent : forall c x,
  cmd_descriptor c ["descriptor"; "d128"] =
    (c, map (Text WMsg) ["128 bit descriptors not supported on this platform"; "Descriptor size is " ++ in_words c (Flag "descriptor")]) /\
  (~ In x timer_names -> cmd_timeout c ["timeout"; x; "off"] = (c, [])).
Proof. exact c136_silent. Qed.
Print Assumptions C136_silent.
Example C136_ex :
  lookup "interval" setting_commands = Some cmd_interval /\ snd (cmd_interval sar_cli ["interval"]) = [Text WMsg "Beacons sent every 3 seconds"] /\
  ~ understood ["interval"; "soon"] /\ List.length (complains sar_cli "interval" ["soon"]) = 2%nat /\
  orders sar_cli ["freespace"; "no"] (Flag "freespace") (KText "no") /\
  confirms ["freespace"; "no"] (KText "no") = ["freespace is not advertised"].
Proof. exact c136_ex. Qed.

(** C137: with "?", a command shows its help and its usage, and does nothing else; for
    "quit" they are those of "exit" *)
Theorem C137_question : forall E s i name, task_is s i (TStart [name; "?"]) -> In name command_names -> ~ In name not_helped -> name <> "beacon" ->
  existsb holds_climu (y_tasks s) = false ->
  exists s', task_step E s i = Some s' /\ only_shows s i (help (if String.eqb name "quit" then "exit" else name)) s'.
Proof. exact c137_question. Qed.
Print Assumptions C137_question.

(** C137: "beacon ?" too, though it also takes over the present settings *)
Theorem C137_beacon : forall E s i, task_is s i (TStart ["beacon"; "?"]) -> existsb holds_climu (y_tasks s) = false ->
  exists s', task_step E s i = Some s' /\ task_is s' i (TBeacon []) /\ y_shown s' = (y_shown s ++ help "beacon")%list /\
    y_sent s' = y_sent s /\ y_cli s' = y_cli s /\ y_tran s' = y_tran s /\
    bc_v4 (y_beacon s') = bc_v4 (y_beacon s) /\ bc_v6 (y_beacon s') = bc_v6 (y_beacon s) /\ bc_hosts (y_beacon s') = bc_hosts (y_beacon s).
Proof. exact c137_beacon. Qed.
Print Assumptions C137_beacon.

(** C137: "ls" shows its usage as an error, whatever its words: what follows is never
    reached (defect) *)
Theorem C137_ls : forall E s i rest, task_is s i (TStart ("ls" :: rest)) ->
  exists s', task_step E s i = Some s' /\ only_shows s i [usage_error "ls"] s'.
Proof. exact c137_ls. Qed.
Print Assumptions C137_ls.

(** C137: "cancel" cancels nothing: it shows its words (defect) *)
Theorem C137_cancel : forall E s i rest, task_is s i (TStart ("cancel" :: rest)) ->
  exists s', task_step E s i = Some s' /\ only_shows s i [Text WMsg ("[" ++ String.concat " " ("cancel" :: rest) ++ "]")] s'.
Proof. exact c137_cancel. Qed.
Print Assumptions C137_cancel.

(** C137: "history" and "home" say that they do not exist; more words are errors *)
Theorem C137_unmade : forall E s i name rest, task_is s i (TStart (name :: rest)) -> rest <> ["?"] ->
  (name = "history" -> exists s', task_step E s i = Some s' /\
     only_shows s i (match rest with [] | [_] => [Text WMsg "History not implemented yet"] | _ => [usage_error "history"] end) s') /\
  (name = "home" -> exists s', task_step E s i = Some s' /\
     only_shows s i (match rest with [] => [Text WMsg "Home not implemented yet"] | _ => [usage_error "home"] end) s').
Proof. exact c137_unmade. Qed.
Print Assumptions C137_unmade.

(** C137: "files", "tran", "exit" and "quit", with too many words or words they do not know, show their usage as an
    error, for "quit" that of "exit" *)
Theorem C137_errors : forall E s i name rest, task_is s i (TStart (name :: rest)) ->
  (name = "files" /\ rest <> [] /\ rest <> ["?"]) \/
  (name = "tran" /\ (2 <= List.length rest)%nat) \/
  ((name = "exit" \/ name = "quit") /\ rest <> [] /\ ~ In rest [["?"]; ["0"]; ["1"]]) ->
  exists s', task_step E s i = Some s' /\ only_shows s i [usage_error (if String.eqb name "quit" then "exit" else name)] s'.
Proof. exact c137_errors. Qed.
Print Assumptions C137_errors.
Example C137_ex :
  let s := yrun (ystart [] [] []) [YLine "s[1]:put ?"; YLine "s[2]:quit ?"; YLine "s[3]:ls ."; YLine "s[4]:cancel it"; YLine "s[5]:tran a b"; YLine "s[6]:beacon ?"] in
  task_is s 0 (TStart ["put"; "?"]) /\ In "put" command_names /\ ~ In "put" not_helped /\ existsb holds_climu (y_tasks s) = false /\
  task_is s 1 (TStart ["quit"; "?"]) /\ task_is s 2 (TStart ["ls"; "."]) /\ task_is s 3 (TStart ["cancel"; "it"]) /\
  task_is s 4 (TStart ["tran"; "a"; "b"]) /\ task_is s 5 (TStart ["beacon"; "?"]).
Proof. exact c137_ex. Qed.

(** C138: a command to start a transfer that is not given an address and a file shows its
    usage as an error; "give" says that there is no such command (defect) *)
Theorem C138_usage : forall E s i cmd rest, In cmd starters -> task_is s i (TStart (cmd :: rest)) -> wrong_words rest ->
  exists s', task_step E s i = Some s' /\ only_shows s i [if String.eqb cmd "give" then no_usage else usage_error cmd] s'.
Proof. exact c138_usage. Qed.
Print Assumptions C138_usage.

(** C138: if the address cannot be understood nothing is started; "get" does not even say so
    (defect) *)
Theorem C138_noaddr : forall E s i cmd a f, In cmd starters -> task_is s i (TStart [cmd; a; f]) -> address (ce_resolve E) a = None ->
  exists s', task_step E s i = Some s' /\ only_shows s i (after_bad_address cmd a) s'.
Proof. exact c138_noaddr. Qed.
Print Assumptions C138_noaddr.

(** C138: if another transfer is in the way nothing is started, and the first that is in the
    way is given as the reason; what is said after it depends on the command, and "give"
    says that the address is invalid though it is not (defect) *)
Theorem C138_refused : forall E s i cmd a f peer t, In cmd starters -> task_is s i (TStart [cmd; a; f]) -> address (ce_resolve E) a = Some peer ->
  let over := overwrites (is_fs (y_tran s)) (is_cwd (y_tran s)) (cl_sardir (y_cli s)) cmd f in
  find (in_the_way over f peer) (table_of s) = Some t ->
  exists s', task_step E s i = Some s' /\
    ends_with s i (if without_connection t then removelast (table_of s) else table_of s) (objection over peer f t :: after_refusal cmd a) s'.
Proof. exact c138_refused. Qed.
Print Assumptions C138_refused.

(** C138: otherwise it goes on to add the transfer, without saying anything yet *)
Theorem C138_accepted : forall E s i cmd a f peer, In cmd starters -> task_is s i (TStart [cmd; a; f]) -> address (ce_resolve E) a = Some peer ->
  find (in_the_way (overwrites (is_fs (y_tran s)) (is_cwd (y_tran s)) (cl_sardir (y_cli s)) cmd f) f peer) (table_of s) = None ->
  exists s', task_step E s i = Some s' /\ task_is s' i (TAdd cmd peer f (one_of cmd ["put"; "putblind"; "give"; "delete"])) /\
    y_shown s' = y_shown s /\ y_tran s' = y_tran s /\ y_cli s' = y_cli s.
Proof. exact c138_accepted. Qed.
Print Assumptions C138_accepted.

(** C138: when the transfer has been added, this is said, and nothing else *)
Theorem C138_added : forall E s i kind peer f waits s', task_is s i (TAdd kind peer f waits) -> task_step E s i = Some s' -> y_dead s' = y_dead s -> y_dead s = false ->
  y_shown s' = (y_shown s ++ [Text WMsg ("Initiator Added " ++ kind ++ " Transfer to " ++ udpaddr_string peer ++ " " ++ f)])%list.
Proof. exact c138_added. Qed.
Print Assumptions C138_added.
Example C138_ex :
  let s := yrun ex_two [YLine "s[4]:give 10.0.0.2 one"; YLine "s[5]:put 10.0.0.9 three"; YLine "s[6]:give me"; YLine "s[7]:take nowhere f"] in
  let over := overwrites (is_fs (y_tran s)) (is_cwd (y_tran s)) (cl_sardir (y_cli s)) "give" "one" in
  In "give" starters /\ task_is s 3 (TStart ["give"; "10.0.0.2"; "one"]) /\
  (exists peer t, address (ce_resolve ex_net) "10.0.0.2" = Some peer /\ find (in_the_way over "one" peer) (table_of s) = Some t /\
     objection over peer "one" t = Text WErr "Initiator one to 10.0.0.2:7542 currently in progress") /\
  task_is s 4 (TStart ["put"; "10.0.0.9"; "three"]) /\
  (exists peer, address (ce_resolve ex_net) "10.0.0.9" = Some peer /\
     find (in_the_way (overwrites (is_fs (y_tran s)) (is_cwd (y_tran s)) (cl_sardir (y_cli s)) "put" "three") "three" peer) (table_of s) = None) /\
  task_is s 5 (TStart ["give"; "me"]) /\ wrong_words ["me"] /\
  task_is s 6 (TStart ["take"; "nowhere"; "f"]) /\ address (fun _ => None) "nowhere" = None /\
  y_dead (yrun s [YStep ex_net 4; YStep ex_net 4]) = false.
Proof. exact c138_ex. Qed.
