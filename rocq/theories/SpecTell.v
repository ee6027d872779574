(** * Specification vocabulary for what the commands tell *)

From Verif Require Import GoBase Flags SpecFlags Config Shipped Timestamp Data SpecFrames Beacon SpecBeacon Fileio Trans Sarnet Transfer SpecTransfer Words SpecWords Cli SpecCli SpecRun SpecShow.
Local Open Scope string_scope.
Local Open Scope N_scope.

(** A setting in words *)
Definition in_words (c : cliflags) (k : knob) : string := match value c k with KText s => s | KNum n => zitoa n | KNone => "" end.
Definition says_yes (c : cliflags) (flag : string) : bool := String.eqb (in_words c (Flag flag)) "yes".
Definition timer_of (c : cliflags) (name : string) : Z := match value c (Timer name) with KNum n => n | _ => 0%Z end.

(** What a command on the settings says if it is given alone *)
Definition answers (c : cliflags) : list (string * list string) :=
  [("bcount", [in_words c Count ++ " Beacons to be sent"]);
   ("checksum", ["Checksum " ++ in_words c (Flag "csumtype")]);
   ("descriptor", ["Descriptor " ++ in_words c (Flag "descriptor")]);
   ("freespace", [if says_yes c "freespace" then "Free space is advertised" else "Free space is not advertised"]);
   ("interval", [if String.eqb (in_words c Interval) "0" then "Single Beacon Interation"
                 else "Beacons sent every " ++ in_words c Interval ++ " seconds"]);
   ("reqtstamp", [if says_yes c "reqtstamp" then "Time stamps requested" else "Time stamps not requested"]);
   ("rxwilling", ["Receive Files:" ++ in_words c (Flag "rxwilling")]);
   ("stream", [if says_yes c "stream" then "Can stream" else "Cannot stream"]);
   ("timeout", [timer_text "metadata" (timer_of c "metadata"); timer_text "request" (timer_of c "request"); timer_text "status" (timer_of c "status");
                (if (timer_of c "datacounter" =? 0)%Z then "Data Counter every 100 frames" else timer_text "datacounter" (timer_of c "datacounter"));
                timer_text "transfer" (timer_of c "transfer")]);
   ("timestamp", ["Timestamps are " ++ in_words c (Flag "reqtstamp") ++ " and " ++ in_words c Stamp]);
   ("timezone", ["Timezone:" ++ in_words c Zone]);
   ("txwilling", ["Transmit Files:" ++ in_words c (Flag "txwilling")])].

(** What it says after it has set something to [v]: most say nothing *)
Definition confirms (ws : list string) (v : kval) : list string :=
  match ws, v with
  | [cmd; _], KText s =>
      if String.eqb cmd "checksum" then ["Checksum " ++ s]
      else if String.eqb cmd "descriptor" then ["Descriptor size is " ++ s]
      else if String.eqb cmd "freespace" then ["freespace is " ++ (if String.eqb s "yes" then "" else "not ") ++ "advertised"]
      else []
  | [cmd; _], KNum n => if String.eqb cmd "timeout" then ["datacounter:Never"] else []
  | [_; name; a], KNum n => [timer_text name n]
  | _, _ => []
  end.

(** What it says to words it does not understand: its usage, for two commands with the word
    "usage:" twice and for others sometimes two times, and the descriptor command also its size *)
Definition complains (c : cliflags) (cmd : string) (rest : list string) : list shown :=
  let u := Text WErr ((if one_of cmd ["descriptor"; "freespace"; "reqtstamp"] then "usage:usage:" else "usage:") ++ usage_text cmd) in
  match rest with
  | [_] => if one_of cmd ["bcount"; "interval"] then [u; u]
           else if String.eqb cmd "descriptor" then [u; Text WMsg ("Descriptor size is " ++ in_words c (Flag "descriptor"))]
           else [u]
  | _ => if String.eqb cmd "checksum" then [u; u] else [u]
  end.

(** Commands that "?" makes show something other than their help and usage *)
Definition not_helped : list string := ["cancel"; "help"; "?"; "usage"; "ls"].

(** ** Commands that start a transfer *)

Definition starters : list string := ["get"; "getdir"; "take"; "put"; "putblind"; "give"; "delete"].
Definition wrong_words (rest : list string) : Prop := match rest with [] | [_; _] => False | [a] => a <> "?" | _ => True end.
(** Usage of a command that there is not *)
Definition no_usage : shown := Text WErr "Invalid Command".
Definition bad_address (a : string) : shown := Text WErr ("Invalid IP Address:" ++ a).
(** What is shown if the address cannot be understood *)
Definition after_bad_address (cmd a : string) : list shown :=
  if String.eqb cmd "get" then []
  else if one_of cmd ["getdir"; "take"] then [bad_address a]
  else if String.eqb cmd "give" then [usage_error "putblind"; no_usage]
  else [bad_address a; usage_error cmd].
(** Why transfer [i] of the table stands in the way of a new one *)
Definition objection (over : bool) (peer : udpaddr) (fname : string) (i : transfer) : shown :=
  Text WErr (if without_connection i then "No connection exists to peer: " ++ udpaddr_string peer
             else if over then "File " ++ fname ++ " already exists, cannot overwrite"
             else "Initiator " ++ fname ++ " to " ++ udpaddr_string peer ++ " currently in progress").
(** What is shown after the reason *)
Definition after_refusal (cmd a : string) : list shown :=
  if String.eqb cmd "get" then []
  else if String.eqb cmd "put" then [Text WMsg "Invalid Command"; no_usage]
  else if String.eqb cmd "give" then [bad_address a; usage_error "putblind"; no_usage]
  else [Text WMsg (cmd ++ ":" ++ help_text cmd); usage_error cmd].
