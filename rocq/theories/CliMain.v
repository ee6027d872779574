(** * The command line: lines and settings *)

From Verif Require Import GoBase GoFacts Flags SpecFlags FlagsFacts SarFacts Config Shipped Data SpecFrames Beacon Sarnet Transfer Words SpecWords WordsFacts Cli SpecCli CliFacts CliFacts2.
Local Open Scope string_scope.
Local Open Scope N_scope.

Lemma is_command : forall w, (has_key w sar_commands = true <-> In w command_names) /\ (one_of w handler_names = true <-> In w command_names).
Proof.
  intros w.
  assert (P : forall l, forallb (fun x => one_of x l) command_names = true -> forallb (fun x => one_of x command_names) l = true ->
    (In w l <-> In w command_names)).
  { intros l A B. rewrite forallb_forall in A, B. split; intros I; apply one_of_In; auto. }
  split.
  - rewrite <- (P (keys sar_commands)) by (vm_compute; reflexivity). rewrite has_key_lookup. split.
    + intros (v & L). apply lookup_In in L. apply in_map_iff. exists (w, v). auto.
    + apply In_keys_lookup.
  - rewrite one_of_In. apply P; vm_compute; reflexivity.
Qed.

(** C67: every text has its words, and only one list of them *)
Lemma c67_words : forall s, (exists ws, words_of s ws) /\ forall ws ws', words_of s ws -> words_of s ws' -> ws = ws'.
Proof.
  intros s. split; [exists (fields s); apply fields_words; reflexivity|]. intros ws ws' A B.
  apply fields_words in A. apply fields_words in B. congruence.
Qed.
(** C67: a line panics exactly if it is not empty and has no words; the process is not
    ended in another way *)
Lemma c67_panics : forall s, (run_line s = Panic <-> s <> "" /\ words_of s []) /\ run_line s <> Fatal.
Proof.
  intros s. unfold run_line. destruct (String.eqb_spec s "").
  - split; [split; [discriminate|intros (N & _); congruence]|discriminate].
  - rewrite fields_trim. rewrite <- fields_words. destruct (fields s) as [|v r]; [split; [tauto|discriminate]|].
    destruct (has_key v sar_commands); [destruct (one_of v handler_names)|]; (split; [split; [discriminate|intros (_ & F); discriminate]|discriminate]).
Qed.
(** C67: an unknown first word is only reported *)
Lemma c67_unknown : forall s w ws, words_of s (w :: ws) -> ~ In w command_names ->
  run_line s = Ret (None, [err ("Invalid command:" ++ w)], false).
Proof.
  intros s w ws H N. apply fields_words in H. unfold run_line. destruct (String.eqb_spec s ""); [subst; discriminate|].
  rewrite fields_trim, H. destruct (has_key w sar_commands) eqn:K; [|reflexivity]. apply is_command in K. contradiction.
Qed.
(** C67: with a command as its first word, the command is run in a goroutine with the
    words of the line *)
Lemma c67_known : forall s w ws, words_of s (w :: ws) -> In w command_names -> run_line s = Ret (Some (w :: ws), [], true).
Proof.
  intros s w ws H N. apply fields_words in H. unfold run_line. destruct (String.eqb_spec s ""); [subst; discriminate|].
  rewrite fields_trim, H. destruct (is_command w) as (A & B). rewrite (proj2 A N), (proj2 B N). reflexivity.
Qed.
Example c67_ex :
  words_of "  get 	10.0.0.1   a.txt " ["get"; "10.0.0.1"; "a.txt"] /\ run_line "   " = Panic /\ words_of "   " [] /\
  run_line "  get 	10.0.0.1   a.txt " = Ret (Some ["get"; "10.0.0.1"; "a.txt"], [], true) /\
  run_line "" = Ret (None, [], true).
Proof. repeat split; try (apply fields_words); vm_compute; reflexivity. Qed.

(** C67: Enter on a line.  What counts is the text after the first colon; without a colon
    the program panics. *)
Lemma c67_enter : forall line,
  (forall text, typed line text ->
     get_line line =
       if one_of text ["exit"; "quit"] then Fatal
       else do ' (g, l, _) <- run_line text; Ret (g, l)) /\
  ((forall text, ~ typed line text) -> get_line line = Panic).
Proof.
  intros line. unfold get_line. pose proof (split_two_spec line) as S. split.
  - intros text T. destruct (split_two ":" line) as [|h [|t [|]]]; try (destruct S; fail).
    + exfalso. exact (S text T).
    + rewrite (typed_unique _ _ _ T S). cbn [index nth_error obind]. destruct (String.eqb_spec t ""); [subst; reflexivity|reflexivity].
  - intros N. destruct (split_two ":" line) as [|h [|t [|]]]; try (destruct S; fail).
    + reflexivity.
    + exfalso. exact (N t S).
Qed.
Example c67_enter_ex : typed "saratoga[3]:rmtran get a:1 5" "rmtran get a:1 5" /\
  get_line "saratoga[3]:rmtran get a:1 5" = Ret (Some ["rmtran"; "get"; "a:1"; "5"], []) /\ get_line "saratoga" = Panic.
Proof.
  split; [|split; vm_compute; reflexivity]. exists "saratoga[3]". split; [|reflexivity]. vm_compute. intros H.
  repeat (destruct H as [H|H]; [discriminate|]). destruct H.
Qed.

(** ** Settings *)

(** C83: a settings command sets what it is ordered to set, and nothing else *)
Lemma c83_effect : forall name f c rest, lookup name setting_commands = Some f ->
  let c' := fst (f c (name :: rest)) in
  (forall k v, orders c (name :: rest) k v -> value c' k = v) /\
  (forall k, (forall v, ~ orders c (name :: rest) k v) -> value c' k = value c k).
Proof.
  intros name f c rest L c'. pose proof (setting_changes name f c rest L) as C. pose proof (ordered_complete c (name :: rest)) as O.
  fold c' in C. split.
  - intros k v H. apply O in H. rewrite (C k), H. reflexivity.
  - intros k N. rewrite (C k). destruct (kfind k (ordered c (name :: rest))) as [v|] eqn:F; [|reflexivity]. apply O in F. now apply N in F.
Qed.
(** C83: these are all the settings there are *)
Lemma c83_all : forall c c', (forall k, value c' k = value c k) ->
  (forall f, lookup f (cl_global c') = lookup f (cl_global c)) /\
  c' = {| cl_global := cl_global c'; cl_v4 := cl_v4 c; cl_v6 := cl_v6 c; cl_port := cl_port c; cl_timestamp := cl_timestamp c;
          cl_timeout := cl_timeout c; cl_timezone := cl_timezone c; cl_prompt := cl_prompt c; cl_ppad := cl_ppad c;
          cl_sardir := cl_sardir c; cl_buffersize := cl_buffersize c; cl_bcount := cl_bcount c |}.
Proof.
  intros c c' H. split.
  - intros f. specialize (H (Flag f)). unfold value in H. destruct (lookup f (cl_global c')), (lookup f (cl_global c)); congruence.
  - pose proof (H Stamp) as H1. pose proof (H Zone) as H2. pose proof (H Interval) as H3. pose proof (H Count) as H4. pose proof (H Group4) as H5.
    pose proof (H Group6) as H6. pose proof (H Port) as H7. pose proof (H Prompt) as H8. pose proof (H Pad) as H9. pose proof (H Directory) as H10.
    pose proof (H Buffer) as H11. pose proof (H (Timer "metadata")) as T1. pose proof (H (Timer "request")) as T2. pose proof (H (Timer "status")) as T3.
    pose proof (H (Timer "transfer")) as T4. pose proof (H (Timer "datacounter")) as T5. clear H.
    destruct c as [? ? ? ? ? [] ? ? ? ? ? ?], c' as [? ? ? ? ? [] ? ? ? ? ? ?]. cbn in *. inversion H3. inversion H4. 
    apply N2Z.inj in H0, H12. congruence.
Qed.
Example c83_ex :
  lookup "checksum" setting_commands = Some cmd_checksum /\ orders sar_cli ["checksum"; "md5"] (Flag "csumtype") (KText "md5") /\
  value (fst (cmd_checksum sar_cli ["checksum"; "md5"])) (Flag "csumtype") = KText "md5" /\
  value sar_cli (Flag "csumtype") = KText "none" /\
  orders sar_cli ["timeout"; "request"; "+7"] (Timer "request") (KNum 7) /\
  value (fst (cmd_timeout sar_cli ["timeout"; "request"; "+7"])) (Timer "request") = KNum 7.
Proof.
  split; [reflexivity|]. split; [apply (or_choice _ "checksum" "md5" [(Flag "csumtype", "md5")]); vm_compute; auto 20|].
  split; [reflexivity|]. split; [reflexivity|]. split; [|reflexivity].
  apply or_timer; [vm_compute; auto|apply counts_atoi; split; [vm_compute; reflexivity|discriminate]|discriminate].
Qed.

(** C84: an error is shown exactly if the words are not understood; and then nothing is set *)
Lemma c84_errors : forall name f c rest, lookup name setting_commands = Some f ->
  ((exists x, In x (snd (f c (name :: rest))) /\ is_error x = true) <-> ~ understood (name :: rest)) /\
  (~ understood (name :: rest) -> forall k, value (fst (f c (name :: rest))) k = value c k).
Proof.
  intros name f c rest L. split.
  - rewrite <- existsb_exists, (setting_errors name f c rest L), <- fine_understood. destruct (fine (name :: rest)); cbn; split; intros; congruence.
  - intros N k. apply (c83_effect name f c rest L). intros v O. apply N. eapply un_orders; eauto.
Qed.
(** C84: the argument "?" shows the help and the usage of the command, and sets nothing *)
Lemma c84_help : forall name f c, lookup name setting_commands = Some f ->
  exists d, lookup name sar_commands = Some d /\
    f c [name; "?"] = (c, [msg (name ++ ":" ++ c_help d); msg ("usage:" ++ c_usage d)]).
Proof.
  intros name f c L. unfold setting_commands in L. cbn [lookup] in L.
  repeat (match type of L with context [String.eqb name ?b] => destruct (String.eqb_spec name b) as [->|_] end;
    [inversion L; clear L; subst f; eexists; split; [vm_compute; reflexivity|vm_compute; reflexivity]|]). discriminate.
Qed.
Example c84_ex : ~ understood ["bcount"; "many"] /\ snd (cmd_bcount sar_cli ["bcount"; "many"]) <> [] /\
  ~ understood ["rxwilling"; "yes"] /\ understood ["rxwilling"; "on"].
Proof. rewrite <- !fine_understood. repeat split; vm_compute; congruence. Qed.

(** C85: asked for one timer, the command tells its value; but whether the metadata timer
    is told or said to be off depends on the request timer (defect) *)
Lemma c85_timers : forall c name n, In name timer_names -> value c (Timer name) = KNum n ->
  (name <> "metadata" -> name <> "datacounter" \/ n <> 0%Z -> snd (cmd_timeout c ["timeout"; name]) = [msg (timer_text name n)]) /\
  (name = "metadata" ->
     (value c (Timer "request") = KNum 0 -> snd (cmd_timeout c ["timeout"; name]) = [msg "metadata:No Timeout"]) /\
     (value c (Timer "request") <> KNum 0 -> snd (cmd_timeout c ["timeout"; name]) = [msg ("metadata:" ++ zitoa n ++ " sec")])).
Proof.
  intros c name n I V. unfold timer_names in I. split.
  - intros NM D. repeat (destruct I as [<-|I]; [try congruence; cbn in V; inversion V; unfold cmd_timeout, timer_text, say_timer, say_counter; cbn - [zitoa]|]); try reflexivity; [|destruct I].
    destruct D as [D|D]; [congruence|]. subst n. destruct (Z.eqb_spec (to_datacounter (cl_timeout c)) 0); [congruence|reflexivity].
  - intros ->. cbn in V. inversion V. unfold cmd_timeout. cbn - [zitoa]. split; intros R.
    + inversion R. rewrite H1. reflexivity.
    + destruct (Z.eqb_spec (to_request (cl_timeout c)) 0) as [e|e]; [rewrite e in R; congruence|reflexivity].
Qed.
Example c85_ex : let c := fst (cmd_timeout sar_cli ["timeout"; "request"; "0"]) in
  value c (Timer "metadata") = KNum 55 /\ snd (cmd_timeout c ["timeout"; "metadata"]) = [msg "metadata:No Timeout"].
Proof. split; reflexivity. Qed.

(** C86: the program ends by a line exactly if the text after the prompt is "exit" or
    "quit", with nothing before or after it *)
Lemma c86_exit : forall line, get_line line = Fatal <-> typed line "exit" \/ typed line "quit".
Proof.
  intros line. destruct (c67_enter line) as (A & B). pose proof (split_two_spec line) as S.
  destruct (split_two ":" line) as [|h [|t [|]]]; try (destruct S; fail).
  - rewrite (B S). split; [discriminate|]. intros [T|T]; exfalso; exact (S _ T).
  - rewrite (A t S). destruct (one_of t ["exit"; "quit"]) eqn:O.
    + split; [|reflexivity]. intros _. apply one_of_In in O. destruct O as [<-|[<-|[]]]; auto.
    + split.
      * pose proof (proj2 (c67_panics t)) as F. destruct (run_line t) as [((g & l) & b)| |]; cbn [obind]; congruence.
      * intros [T|T]; rewrite (typed_unique _ _ _ S T) in O; discriminate.
Qed.
(** C86: other lines with these commands, like "exit 1" or "exit ", only show a text and
    set a variable that nothing reads, to 0 or 1 as said, "Good Bye!" or not (defect) *)
Lemma c86_goes_on : forall line w rest E s i, asks line (w :: rest) -> In w ["exit"; "quit"] ->
  ~ typed line "exit" -> ~ typed line "quit" ->
  get_line line = Ret (Some (w :: rest), []) /\
  (nth_error (y_tasks s) i = Some (TStart (w :: rest)) ->
     exists z l, task_step E s i = Some (finish (y_with_exit s z) i l) /\
       (rest = [] \/ rest = ["0"] -> z = 0%Z /\ l = [msg "Good Bye!"]) /\
       (rest = ["1"] -> z = 1%Z /\ l = [msg "Good Bye!"]) /\
       (rest <> [] -> rest <> ["0"] -> rest <> ["1"] -> z = y_exit s /\ l <> [msg "Good Bye!"])).
Proof.
  intros line w rest E s i (text & T & W) I N1 N2. split.
  - destruct (c67_enter line) as (A & _). rewrite (A text T).
    assert (O : one_of text ["exit"; "quit"] = false).
    { destruct (one_of text ["exit"; "quit"]) eqn:O; [|reflexivity]. apply one_of_In in O. destruct O as [<-|[<-|[]]]; contradiction. }
    rewrite O. rewrite (c67_known text w rest W); [reflexivity|]. destruct I as [<-|[<-|[]]]; vm_compute; auto 40.
  - intros NT. unfold task_step. rewrite NT.
    assert (X : start_step E s i (w :: rest) = let (z, l) := cmd_exit (y_exit s) (w :: rest) in Some (finish (y_with_exit s z) i l)).
    { destruct I as [<-|[<-|[]]]; reflexivity. }
    rewrite X. clear X NT. unfold cmd_exit.
    destruct rest as [|a [|a' rest]].
    + exists 0%Z, [msg "Good Bye!"]. split; [reflexivity|]. split; [auto|]. split; [discriminate|congruence].
    + destruct (String.eqb_spec a "?") as [->|NQ].
      * eexists _, _. split; [reflexivity|]. split; [intros [Y|Y]; discriminate|]. split; [discriminate|]. split; [reflexivity|discriminate].
      * destruct (String.eqb_spec a "0") as [->|N0]; [|destruct (String.eqb_spec a "1") as [->|N3]].
        -- eexists _, _. split; [reflexivity|]. split; [auto|]. split; [discriminate|congruence].
        -- eexists _, _. split; [reflexivity|]. split; [intros [Y|Y]; discriminate|]. split; [auto|congruence].
        -- eexists _, _. split; [reflexivity|]. split; [intros [Y|Y]; congruence|]. split; [congruence|]. split; [reflexivity|discriminate].
    + eexists _, _. split; [reflexivity|]. split; [intros [Y|Y]; discriminate|]. split; [discriminate|]. split; [reflexivity|discriminate].
Qed.
Example c86_ex : asks "saratoga[1]:exit 1" ["exit"; "1"] /\ ~ typed "saratoga[1]:exit 1" "exit" /\
  get_line "saratoga[1]:exit 1" = Ret (Some ["exit"; "1"], []) /\ get_line "saratoga[1]:exit" = Fatal.
Proof.
  assert (T : typed "saratoga[1]:exit 1" "exit 1").
  { exists "saratoga[1]". split; [|reflexivity]. vm_compute. intros H. repeat (destruct H as [H|H]; [discriminate|]). destruct H. }
  split; [exists "exit 1"; split; [exact T|apply fields_words; reflexivity]|]. split; [|split; reflexivity].
  intros X. pose proof (typed_unique _ _ _ T X). discriminate.
Qed.
