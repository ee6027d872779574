(** * Specification vocabulary for what the other commands show and do *)

From Verif Require Import GoBase Flags SpecFlags Config Shipped Timestamp Data SpecFrames Beacon SpecBeacon Fileio Trans Sarnet Transfer SpecTransfer Words SpecWords Cli SpecCli SpecRun.
From Coq Require Import Permutation Sorted.
Local Open Scope string_scope.
Local Open Scope N_scope.

(** ** Ending *)

(** From [s] to [s'], goroutine [i] ends, showing [l] and leaving [table] as the table of
    transfers; nothing else changes *)
Record ends_with (s : ystate) (i : nat) (table : list transfer) (l : list shown) (s' : ystate) : Prop := {
  ew_task : task_is s' i TEnd;
  ew_others : forall j, j <> i -> nth_error (y_tasks s') j = nth_error (y_tasks s) j;
  ew_shown : y_shown s' = (y_shown s ++ l)%list;
  ew_table : is_table (y_tran s') = table;
  ew_session : is_session (y_tran s') = is_session (y_tran s);
  ew_files : is_fs (y_tran s') = is_fs (y_tran s) /\ is_cwd (y_tran s') = is_cwd (y_tran s);
  ew_settings : y_cli s' = y_cli s;
  ew_beacons : y_beacon s' = y_beacon s;
  ew_sent : y_sent s' = y_sent s;
  ew_peers : y_peers s' = y_peers s;
  ew_exit : y_exit s' = y_exit s;
  ew_chans : y_chans s' = y_chans s;
  ew_dead : y_dead s' = y_dead s }.
Definition table_of (s : ystate) : list transfer := is_table (y_tran s).
(** It only shows [l] *)
Definition only_shows (s : ystate) (i : nat) (l : list shown) (s' : ystate) : Prop := ends_with s i (table_of s) l s'.

(** ** Texts *)

Definition help_text (cmd : string) : string := match lookup cmd sar_commands with Some t => c_help t | None => "" end.
Definition usage_text (cmd : string) : string := match lookup cmd sar_commands with Some t => c_usage t | None => "" end.
(** What is said when a command is not understood, and what "?" asks for *)
Definition usage_error (cmd : string) : shown := Text WErr ("usage:" ++ usage_text cmd).
Definition help (cmd : string) : list shown := [Text WMsg (cmd ++ ":" ++ help_text cmd); Text WMsg ("usage:" ++ usage_text cmd)].

(** ** Removing a transfer *)

(** The transfer that "rmtran" with this address and session means *)
Definition named (addr : string) (session : N) (t : transfer) : Prop := connected_to addr t /\ tr_session t = session.
(** [t] is in the table; the transfers after it are connected and are not meant *)
Definition last_candidate (addr : string) (session : N) (table : list transfer) (t : transfer) : Prop :=
  exists before after, table = (before ++ t :: after)%list /\ Forall (fun u => connected u /\ ~ named addr session u) after.
(** The text is a session id *)
Definition session_text (text : string) (session : N) : Prop := decimal (bytes_of text) session /\ session < 2 ^ 32.

(** ** Listing transfers *)

Definition of_kind (kind : string) (table : list transfer) : list transfer := filter (fun t => String.eqb (tr_ttype t) kind) table.
(** One row for each, or a text if there are none *)
Definition listing (kind : string) (l : list transfer) : list shown :=
  match l with
  | [] => [Text WMsg ("No " ++ kind ++ " transfers currently in progress")]
  | _ => [Rows (map (fun t => (tr_ttype t, udpaddr_string (tr_peer t), tr_filename t)) l)]
  end.
(** The kinds of transfer that commands start, and the kinds that "tran" knows *)
Definition started_kinds : list string := ["get"; "getdir"; "take"; "put"; "putblind"; "give"; "delete"].
Definition listed_kinds : list string := ["get"; "getrm"; "getdir"; "put"; "putblind"; "putrm"; "rm"; "rmdir"].

(** ** The end of the program *)

(** The time can be written: its type is one of the six that have names *)
Definition writable (t : timestamp) : Prop := exists name, st_getstr sar (t_header t) = Ret name.
(** Looking at the file fails in a way that is not "no such file": the system says
    something else, or it is a link to something that is not there *)
Definition cannot_look (fs : fsys) (cwd : path) (sardir fname : string) : Prop :=
  match os_lstat fs cwd (sardir ++ "/" ++ fname) with
  | inr e => e <> ENOENT
  | inl n => exists target e, n_kind n = KLink target /\ os_lstat fs cwd target = inr e
  end.
(** What a goroutine can be about to do that ends the program *)
Inductive deadly (E : cenv) (s : ystate) : task -> Prop :=
| dl_peers : forall p, In p (y_peers s) -> ~ (writable (p_created p) /\ writable (p_updated p)) -> deadly E s (TStart ["peers"])
| dl_rmtran : forall kind addr n session t, session_text n session -> last_candidate addr session (table_of s) t -> ~ connected t ->
    deadly E s (TStart ["rmtran"; kind; addr; n])
| dl_beacon : forall todo to v, about_to_send E todo to -> value (y_cli s) (Flag "txwilling") = KText v -> v = "on" \/ v = "off" ->
    deadly E s (TBeacon todo)
| dl_file : forall kind peer fname waits,
    (let o := file_open (ce_now E) (ce_chdir E) (is_fs (y_tran s)) (is_cwd (y_tran s)) (cl_sardir (y_cli s)) fname kind in
     cannot_look (or_fs o) (or_cwd o) (cl_sardir (y_cli s)) fname) ->
    deadly E s (TAdd kind peer fname waits).

(** ** Help *)

(** The lines, one after the other, in the order of the bytes *)
Definition newline : string := String (ascii_of_N 10) "".
Definition lines (l : list string) : string := String.concat "" (map (fun s => s ++ newline) l).
(** [l] holds the line of each command, in order *)
Definition manual (line : string -> string) (l : list string) : Prop :=
  Permutation l (map line command_names) /\ StronglySorted (fun a b => String.leb a b = true) l.

(** ** Windows *)

Definition windows : list (string * window) := [("msg", WMsg); ("err", WErr); ("packet", WPacket)].
Definition clears (word : string) : list shown :=
  match lookup word windows with Some w => [Text WMsg ("Cleared Window:" ++ word); Cleared w] | None => [] end.
