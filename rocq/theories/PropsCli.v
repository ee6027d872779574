(** * Cli: the properties

    Statements only; the proofs are in CliMain.v. *)
From Verif Require Import GoBase GoFacts Flags SpecFlags FlagsFacts SarFacts Config Shipped Data SpecFrames Beacon Sarnet Transfer Words SpecWords WordsFacts Cli SpecCli CliFacts CliFacts2 CliMain.
Local Open Scope string_scope.
Local Open Scope N_scope.

(** C67: every text has its words, and only one list of them *)
Theorem C67_words : forall s, (exists ws, words_of s ws) /\ forall ws ws', words_of s ws -> words_of s ws' -> ws = ws'.
Proof. exact c67_words. Qed.
Print Assumptions C67_words.

(** C67: a line panics exactly if it is not empty and has no words; the process is not
    ended in another way *)
Theorem C67_panics : forall s, (run_line s = Panic <-> s <> "" /\ words_of s []) /\ run_line s <> Fatal.
Proof. exact c67_panics. Qed.
Print Assumptions C67_panics.

(** C67: an unknown first word is only reported *)
Theorem C67_unknown : forall s w ws, words_of s (w :: ws) -> ~ In w command_names ->
  run_line s = Ret (None, [err ("Invalid command:" ++ w)], false).
Proof. exact c67_unknown. Qed.
Print Assumptions C67_unknown.

(** C67: with a command as its first word, the command is run in a goroutine with the
    words of the line *)
Theorem C67_known : forall s w ws, words_of s (w :: ws) -> In w command_names -> run_line s = Ret (Some (w :: ws), [], true).
Proof. exact c67_known. Qed.
Print Assumptions C67_known.
Example C67_ex :
  words_of "  get 	10.0.0.1   a.txt " ["get"; "10.0.0.1"; "a.txt"] /\ run_line "   " = Panic /\ words_of "   " [] /\
  run_line "  get 	10.0.0.1   a.txt " = Ret (Some ["get"; "10.0.0.1"; "a.txt"], [], true) /\
  run_line "" = Ret (None, [], true).
Proof. exact c67_ex. Qed.

(** C67: Enter on a line.  What counts is the text after the first colon; without a colon
    the program panics. *)
Theorem C67_enter : forall line,
  (forall text, typed line text ->
     get_line line =
       if one_of text ["exit"; "quit"] then Fatal
       else do ' (g, l, _) <- run_line text; Ret (g, l)) /\
  ((forall text, ~ typed line text) -> get_line line = Panic).
Proof. exact c67_enter. Qed.
Print Assumptions C67_enter.
Example C67_enter_ex : typed "saratoga[3]:rmtran get a:1 5" "rmtran get a:1 5" /\
  get_line "saratoga[3]:rmtran get a:1 5" = Ret (Some ["rmtran"; "get"; "a:1"; "5"], []) /\ get_line "saratoga" = Panic.
Proof. exact c67_enter_ex. Qed.

(** C83: a settings command sets what it is ordered to set, and nothing else *)
Theorem C83_effect : forall name f c rest, lookup name setting_commands = Some f ->
  let c' := fst (f c (name :: rest)) in
  (forall k v, orders c (name :: rest) k v -> value c' k = v) /\
  (forall k, (forall v, ~ orders c (name :: rest) k v) -> value c' k = value c k).
Proof. exact c83_effect. Qed.
Print Assumptions C83_effect.

(** C83: these are all the settings there are *)
Theorem C83_all : forall c c', (forall k, value c' k = value c k) ->
  (forall f, lookup f (cl_global c') = lookup f (cl_global c)) /\
  c' = {| cl_global := cl_global c'; cl_v4 := cl_v4 c; cl_v6 := cl_v6 c; cl_port := cl_port c; cl_timestamp := cl_timestamp c;
          cl_timeout := cl_timeout c; cl_timezone := cl_timezone c; cl_prompt := cl_prompt c; cl_ppad := cl_ppad c;
          cl_sardir := cl_sardir c; cl_buffersize := cl_buffersize c; cl_bcount := cl_bcount c |}.
Proof. exact c83_all. Qed.
Print Assumptions C83_all.
Example C83_ex :
  lookup "checksum" setting_commands = Some cmd_checksum /\ orders sar_cli ["checksum"; "md5"] (Flag "csumtype") (KText "md5") /\
  value (fst (cmd_checksum sar_cli ["checksum"; "md5"])) (Flag "csumtype") = KText "md5" /\
  value sar_cli (Flag "csumtype") = KText "none" /\
  orders sar_cli ["timeout"; "request"; "+7"] (Timer "request") (KNum 7) /\
  value (fst (cmd_timeout sar_cli ["timeout"; "request"; "+7"])) (Timer "request") = KNum 7.
Proof. exact c83_ex. Qed.

(** C84: an error is shown exactly if the words are not understood; and then nothing is set *)
Theorem C84_errors : forall name f c rest, lookup name setting_commands = Some f ->
  ((exists x, In x (snd (f c (name :: rest))) /\ is_error x = true) <-> ~ understood (name :: rest)) /\
  (~ understood (name :: rest) -> forall k, value (fst (f c (name :: rest))) k = value c k).
Proof. exact c84_errors. Qed.
Print Assumptions C84_errors.

(** C84: the argument "?" shows the help and the usage of the command, and sets nothing *)
Theorem C84_help : forall name f c, lookup name setting_commands = Some f ->
  exists d, lookup name sar_commands = Some d /\
    f c [name; "?"] = (c, [msg (name ++ ":" ++ c_help d); msg ("usage:" ++ c_usage d)]).
Proof. exact c84_help. Qed.
Print Assumptions C84_help.
Example C84_ex : ~ understood ["bcount"; "many"] /\ snd (cmd_bcount sar_cli ["bcount"; "many"]) <> [] /\
  ~ understood ["rxwilling"; "yes"] /\ understood ["rxwilling"; "on"].
Proof. exact c84_ex. Qed.

(** C85: asked for one timer, the command tells its value; but whether the metadata timer
    is told or said to be off depends on the request timer (defect) *)
Theorem C85_timers : forall c name n, In name timer_names -> value c (Timer name) = KNum n ->
  (name <> "metadata" -> name <> "datacounter" \/ n <> 0%Z -> snd (cmd_timeout c ["timeout"; name]) = [msg (timer_text name n)]) /\
  (name = "metadata" ->
     (value c (Timer "request") = KNum 0 -> snd (cmd_timeout c ["timeout"; name]) = [msg "metadata:No Timeout"]) /\
     (value c (Timer "request") <> KNum 0 -> snd (cmd_timeout c ["timeout"; name]) = [msg ("metadata:" ++ zitoa n ++ " sec")])).
Proof. exact c85_timers. Qed.
Print Assumptions C85_timers.
Example C85_ex : let c := fst (cmd_timeout sar_cli ["timeout"; "request"; "0"]) in
  value c (Timer "metadata") = KNum 55 /\ snd (cmd_timeout c ["timeout"; "metadata"]) = [msg "metadata:No Timeout"].
Proof. exact c85_ex. Qed.

(** C86: the program ends by a line exactly if the text after the prompt is "exit" or
    "quit", with nothing before or after it *)
Theorem C86_exit : forall line, get_line line = Fatal <-> typed line "exit" \/ typed line "quit".
Proof. exact c86_exit. Qed.
Print Assumptions C86_exit.

(** C86: other lines with these commands, like "exit 1" or "exit ", only show a text and
    set a variable that nothing reads, to 0 or 1 as said, "Good Bye!" or not (defect) *)
Theorem C86_goes_on : forall line w rest E s i, asks line (w :: rest) -> In w ["exit"; "quit"] ->
  ~ typed line "exit" -> ~ typed line "quit" ->
  get_line line = Ret (Some (w :: rest), []) /\
  (nth_error (y_tasks s) i = Some (TStart (w :: rest)) ->
     exists z l, task_step E s i = Some (finish (y_with_exit s z) i l) /\
       (rest = [] \/ rest = ["0"] -> z = 0%Z /\ l = [msg "Good Bye!"]) /\
       (rest = ["1"] -> z = 1%Z /\ l = [msg "Good Bye!"]) /\
       (rest <> [] -> rest <> ["0"] -> rest <> ["1"] -> z = y_exit s /\ l <> [msg "Good Bye!"])).
Proof. exact c86_goes_on. Qed.
Print Assumptions C86_goes_on.
Example C86_ex : asks "saratoga[1]:exit 1" ["exit"; "1"] /\ ~ typed "saratoga[1]:exit 1" "exit" /\
  get_line "saratoga[1]:exit 1" = Ret (Some ["exit"; "1"], []) /\ get_line "saratoga[1]:exit" = Fatal.
Proof. exact c86_ex. Qed.
