(** * Show: the properties

    Statements only; the proofs are in ShowMain.v. *)
From Verif Require Import GoBase GoFacts Flags SpecFlags FlagsFacts FlagStrFacts SarFacts FlagsMain Config ConfigFacts Shipped SpecWire Data SpecFrames BuildFacts Beacon SpecBeacon BeaconMain Timestamp Fileio Trans Sarnet Transfer Words SpecWords WordsFacts SpecTransfer TransferMain Cli SpecCli CliFacts CliFacts2 CliMain RunFacts SpecRun RunMain SpecShow ShowMain.
From Coq Require Import Permutation Sorted.
Local Open Scope string_scope.
Local Open Scope N_scope.

(** C92: if the last transfer that decides is the one that is meant, the last transfer of
    the table is removed, whichever that is (defect) *)
Theorem C92_removes : forall E s i kind addr n session t, task_is s i (TStart ["rmtran"; kind; addr; n]) -> session_text n session ->
  last_candidate addr session (table_of s) t -> named addr session t ->
  exists s', task_step E s i = Some s' /\ ends_with s i (removelast (table_of s)) [] s'.
Proof. exact c92_removes. Qed.
Print Assumptions C92_removes.

(** C92: so one that is meant stays as long as another one was started after it, and that
    one goes instead (defect) *)
Theorem C92_wrong : forall E s i kind addr n session t before after last, task_is s i (TStart ["rmtran"; kind; addr; n]) -> session_text n session ->
  table_of s = (before ++ t :: after ++ [last])%list -> named addr session t ->
  Forall (fun u => connected u /\ ~ named addr session u) (after ++ [last]) ->
  exists s', task_step E s i = Some s' /\ ends_with s i (before ++ t :: after)%list [] s'.
Proof. exact c92_wrong. Qed.
Print Assumptions C92_wrong.

(** C92: if every transfer is connected and none is meant, nothing is removed *)
Theorem C92_absent : forall E s i kind addr n session, task_is s i (TStart ["rmtran"; kind; addr; n]) -> session_text n session ->
  Forall (fun u => connected u /\ ~ named addr session u) (table_of s) ->
  exists s', task_step E s i = Some s' /\
    only_shows s i [Text WMsg ("No such transfer:" ++ kind ++ " " ++ addr ++ " " ++ addr); usage_error "rmtran"] s'.
Proof. exact c92_absent. Qed.
Print Assumptions C92_absent.

(** C92: if one without a connection comes first, the program ends (defect) *)
Theorem C92_dies : forall E s i kind addr n session t, task_is s i (TStart ["rmtran"; kind; addr; n]) -> session_text n session ->
  last_candidate addr session (table_of s) t -> ~ connected t -> task_step E s i = Some (y_kill s).
Proof. exact c92_dies. Qed.
Print Assumptions C92_dies.

(** C92: there is no other case *)
Theorem C92_cases : forall addr session table,
  Forall (fun u => connected u /\ ~ named addr session u) table \/
  exists t, last_candidate addr session table t /\ (named addr session t \/ ~ connected t).
Proof. exact c92_cases. Qed.
Print Assumptions C92_cases.

(** C92: and with any other words nothing is removed *)
Theorem C92_other : forall E s i args, task_is s i (TStart ("rmtran" :: args)) ->
  (forall kind addr n session, args = [kind; addr; n] -> ~ session_text n session) ->
  exists s' l, task_step E s i = Some s' /\ only_shows s i l s' /\
    (args = ["?"] -> l = help "rmtran") /\ (args <> ["?"] -> In (usage_error "rmtran") l).
Proof. exact c92_other. Qed.
Print Assumptions C92_other.
Example C92_ex :
  task_is ex_two 2 (TStart ["rmtran"; "get"; "10.0.0.2:7542"; "78"]) /\ session_text "78" 78 /\
  (exists t, named "10.0.0.2:7542" 78 t /\ last_candidate "10.0.0.2:7542" 78 (table_of ex_two) t) /\
  map tr_filename (table_of ex_two) = ["one"; "two"] /\
  map tr_filename (table_of (yrun ex_two [YStep ex_net 2])) = ["one"].
Proof. exact c92_ex. Qed.

(** C93: "files" and "tran" list every transfer, in the order they were started *)
Theorem C93_all : forall E s i cmd, cmd = "files" \/ cmd = "tran" -> task_is s i (TStart [cmd]) ->
  exists s', task_step E s i = Some s' /\ only_shows s i (listing "" (table_of s)) s'.
Proof. exact c93_all. Qed.
Print Assumptions C93_all.

(** C93: "tran" with a kind lists those of that kind; other words are errors *)
Theorem C93_tran : forall E s i a, task_is s i (TStart ["tran"; a]) ->
  exists s', task_step E s i = Some s' /\
    only_shows s i (if String.eqb a "?" then help "tran" else if is_in a listed_kinds then listing a (of_kind a (table_of s)) else [usage_error "tran"]) s'.
Proof. exact c93_tran. Qed.
Print Assumptions C93_tran.

(** C93: a command that starts transfers lists, without words, those of its kind *)
Theorem C93_kind : forall E s i cmd kind, In (cmd, kind) [("get", "get"); ("getdir", "getdir"); ("take", "getrm"); ("put", "put"); ("putblind", "putblind"); ("give", "putrm"); ("delete", "rm")] ->
  task_is s i (TStart [cmd]) ->
  exists s', task_step E s i = Some s' /\ only_shows s i (listing kind (of_kind kind (table_of s))) s'.
Proof. exact c93_kind. Qed.
Print Assumptions C93_kind.

(** C93: every transfer in the table was started from here, as one of the seven kinds *)
Theorem C93_kinds : forall s t, reachable s -> In t (table_of s) -> In (tr_ttype t) started_kinds /\ tr_direction t = initiator.
Proof. exact c93_kinds. Qed.
Print Assumptions C93_kinds.

(** C93: so "take", "give" and "delete" never list anything, nor does "tran" with what
    they ask for (defect) *)
Theorem C93_never : forall E s i ws kind, reachable s ->
  In (ws, kind) [(["take"], "getrm"); (["give"], "putrm"); (["delete"], "rm"); (["tran"; "getrm"], "getrm"); (["tran"; "putrm"], "putrm");
                 (["tran"; "rm"], "rm"); (["tran"; "rmdir"], "rmdir")] ->
  task_is s i (TStart ws) ->
  exists s', task_step E s i = Some s' /\ only_shows s i [Text WMsg ("No " ++ kind ++ " transfers currently in progress")] s'.
Proof. exact c93_never. Qed.
Print Assumptions C93_never.
Example C93_ex :
  let s := yrun ex_two [YLine "s[4]:take"; YLine "s[5]:tran get"; YLine "s[6]:files"] in
  reachable s /\ task_is s 3 (TStart ["take"]) /\ map tr_ttype (table_of s) = ["get"; "take"] /\
  y_shown (yrun s [YStep ex_net 3; YStep ex_net 4; YStep ex_net 5]) =
    [Text WMsg "Initiator Added get Transfer to 10.0.0.2:7542 one"; Text WMsg "Initiator Added take Transfer to 10.0.0.3:7542 two";
     Text WMsg "No getrm transfers currently in progress"; Rows [("get", "10.0.0.2:7542", "one")];
     Rows [("get", "10.0.0.2:7542", "one"); ("take", "10.0.0.3:7542", "two")]].
Proof. exact c93_ex. Qed.

(** C94: these commands change nothing, whatever their words, and never wait *)
Theorem C94_shows : forall E s i cmd rest, In cmd ["cancel"; "clear"; "files"; "help"; "?"; "history"; "home"; "ls"; "tran"; "usage"] ->
  task_is s i (TStart (cmd :: rest)) -> exists s' l, task_step E s i = Some s' /\ only_shows s i l s'.
Proof. exact c94_shows. Qed.
Print Assumptions C94_shows.

(** C94: nor does "peers", which shows every peer, as long as their times can be written *)
Theorem C94_peers : forall E s i, task_is s i (TStart ["peers"]) -> Forall (fun p => writable (p_created p) /\ writable (p_updated p)) (y_peers s) ->
  exists s', task_step E s i = Some s' /\
    only_shows s i (match y_peers s with [] => [Text WMsg "No Peers"] | _ => [Peers (y_peers s)] end) s'.
Proof. exact c94_peers. Qed.
Print Assumptions C94_peers.

(** C94: "?" after a command shows its help *)
Theorem C94_help : forall E s i cmd, In cmd ["clear"; "delete"; "exit"; "files"; "get"; "getdir"; "give"; "history"; "home"; "peers"; "put"; "putblind"; "rmtran"; "take"; "tran"] ->
  task_is s i (TStart [cmd; "?"]) -> exists s', task_step E s i = Some s' /\ only_shows s i (help cmd) s'.
Proof. exact c94_help. Qed.
Print Assumptions C94_help.
Example C94_ex :
  let s := yrun ex_two [YLine "s[4]:cancel it now"; YLine "s[5]:take ?"; YLine "s[6]:peers"] in
  task_is s 3 (TStart ["cancel"; "it"; "now"]) /\ task_is s 4 (TStart ["take"; "?"]) /\ task_is s 5 (TStart ["peers"]) /\
  option_map y_shown (task_step ex_net s 3) = Some (y_shown s ++ [Text WMsg "[cancel it now]"])%list /\
  option_map y_shown (task_step ex_net s 4) = Some (y_shown s ++ help "take")%list /\ help_text "take" <> "" /\ usage_text "take" <> "" /\
  option_map y_shown (task_step ex_net s 5) = Some (y_shown s ++ [Text WMsg "No Peers"])%list.
Proof. exact c94_ex. Qed.

(** C95: a step of a goroutine ends the program exactly when it is one of the four deadly ones *)
Theorem C95_dies : forall s E i t s', reachable s -> y_dead s = false -> task_is s i t -> task_step E s i = Some s' ->
  (y_dead s' = true <-> deadly E s t).
Proof. exact c95_dies. Qed.
Print Assumptions C95_dies.
Example C95_ex :
  let s := yrun ex_ystart [YLine "s[1]:get 10.0.0.2 one"; YStep ex_nodial 0; YStep ex_nodial 0; YLine "s[2]:rmtran get 10.0.0.2:7542 78"; YLine "s[3]:peers"] in
  reachable s /\ y_dead s = false /\ task_is s 1 (TStart ["rmtran"; "get"; "10.0.0.2:7542"; "78"]) /\
  deadly ex_nodial s (TStart ["rmtran"; "get"; "10.0.0.2:7542"; "78"]) /\ ~ deadly ex_nodial s (TStart ["peers"]) /\
  option_map y_dead (task_step ex_nodial s 1) = Some true /\ option_map y_dead (task_step ex_nodial s 2) = Some false.
Proof. exact c95_ex. Qed.

(** C96: "help" and "?" show one line for each command, in order *)
Theorem C96_help : forall E s i cmd, cmd = "help" \/ cmd = "?" -> task_is s i (TStart [cmd]) ->
  exists s' l, task_step E s i = Some s' /\ only_shows s i [Text WMsg (lines l)] s' /\ manual (fun c => c ++ " - " ++ help_text c) l.
Proof. exact c96_help. Qed.
Print Assumptions C96_help.

(** C96: with "?" the usage as well *)
Theorem C96_full : forall E s i cmd, cmd = "help" \/ cmd = "?" -> task_is s i (TStart [cmd; "?"]) ->
  exists s' l, task_step E s i = Some s' /\ only_shows s i [Text WMsg (lines l)] s' /\
    manual (fun c => c ++ " - " ++ help_text c ++ newline ++ "  " ++ usage_text c) l.
Proof. exact c96_full. Qed.
Print Assumptions C96_full.

(** C96: with any other words, only the line of "help" itself: not that of the command
    that is named (defect) *)
Theorem C96_own : forall E s i cmd a rest, cmd = "help" \/ cmd = "?" -> task_is s i (TStart (cmd :: a :: rest)) -> a :: rest <> ["?"] ->
  exists s', task_step E s i = Some s' /\ only_shows s i [Text WMsg ("help - " ++ help_text "help")] s'.
Proof. exact c96_own. Qed.
Print Assumptions C96_own.

(** C96: "usage" shows the usage of each command, whatever its words *)
Theorem C96_usage : forall E s i rest, task_is s i (TStart ("usage" :: rest)) ->
  exists s' l, task_step E s i = Some s' /\ only_shows s i [Text WMsg (lines l)] s' /\ manual (fun c => c ++ " - " ++ usage_text c) l.
Proof. exact c96_usage. Qed.
Print Assumptions C96_usage.
Example C96_ex :
  let s := yrun ex_ystart [YLine "s[1]:?"; YLine "s[2]:help get"; YLine "s[3]:usage"] in
  task_is s 0 (TStart ["?"]) /\ task_is s 1 (TStart ["help"; "get"]) /\ task_is s 2 (TStart ["usage"]) /\
  (forall c, In c command_names -> help_text c <> "" /\ usage_text c <> "").
Proof. exact c96_ex. Qed.

(** C97: "clear" alone clears the three windows *)
Theorem C97_all : forall E s i, task_is s i (TStart ["clear"]) ->
  exists s', task_step E s i = Some s' /\ only_shows s i (Text WMsg "Cleared all windows" :: map (fun x => Cleared (snd x)) windows) s'.
Proof. exact c97_all. Qed.
Print Assumptions C97_all.

(** C97: with words it clears the windows named, in order, up to the first word that is
    not the name of one *)
Theorem C97_words : forall E s i good bad, task_is s i (TStart ("clear" :: good ++ bad)) -> (good ++ bad)%list <> [] -> (good ++ bad)%list <> ["?"] ->
  Forall (fun w => In w (map fst windows)) good -> match bad with [] => True | w :: _ => ~ In w (map fst windows) end ->
  exists s', task_step E s i = Some s' /\
    only_shows s i (flat_map clears good ++ match bad with [] => [] | _ => [usage_error "clear"] end)%list s'.
Proof. exact c97_words. Qed.
Print Assumptions C97_words.
Example C97_ex :
  let s := yrun ex_ystart [YLine "s[1]:clear packet err that msg"] in
  task_is s 0 (TStart ("clear" :: ["packet"; "err"] ++ ["that"; "msg"])) /\
  option_map y_shown (task_step ex_net s 0) =
    Some [Text WMsg "Cleared Window:packet"; Cleared WPacket; Text WMsg "Cleared Window:err"; Cleared WErr; usage_error "clear"].
Proof. exact c97_ex. Qed.
