(** * What the commands tell: C136, C137, C138 *)

From Verif Require Import GoBase GoFacts Flags SpecFlags FlagsFacts Config Shipped Timestamp Data SpecFrames Beacon SpecBeacon Fileio Trans Sarnet BuildFacts Transfer SpecTransfer TransferMain SpecSend Words SpecWords WordsFacts Cli SpecCli TextFacts CliFacts CliFacts2 CliMain SpecRun RunFacts RunMain SpecShow ShowMain SpecTell.
Local Open Scope string_scope.
Local Open Scope N_scope.

Lemma global_words : forall c f, global c f = in_words c (Flag f).
Proof. intros c f. unfold global, in_words. cbn. destruct (lookup f (cl_global c)); reflexivity. Qed.
Lemma zitoa_N : forall n, zitoa (Z.of_N n) = itoa n.
Proof. intros n. unfold zitoa. destruct (Z.ltb_spec (Z.of_N n) 0); [lia|]. now rewrite N2Z.id. Qed.
Lemma itoa_zero : forall n, String.eqb (zitoa (Z.of_N n)) "0" = (n =? 0).
Proof.
  intros n. rewrite zitoa_N. destruct (N.eqb_spec n 0) as [->|N]; [reflexivity|]. apply String.eqb_neq. intros E.
  pose proof (itoa_digits_acc n) as D. rewrite E in D. cbn in D. congruence.
Qed.

(** C136: alone, a command on the settings tells the setting *)
Lemma c136_alone : forall name f c, lookup name setting_commands = Some f ->
  exists l, lookup name (answers c) = Some l /\ snd (f c [name]) = map (Text WMsg) l.
Proof.
  intros name f c L. unfold setting_commands in L. cbn [lookup] in L. unfold answers. cbn [lookup].
  repeat (match type of L with context [String.eqb name ?b] => destruct (String.eqb_spec name b) as [->|_] end;
    [inversion L; clear L; subst f; eexists; split; [reflexivity|]; unfold says_yes; rewrite <- ?global_words|]); [..|discriminate L]; try reflexivity.
  - cbn. now rewrite zitoa_N.
  - cbn -[global String.eqb]. unfold in_words. cbn [value]. rewrite itoa_zero, zitoa_N. reflexivity.
  - unfold cmd_timeout, say_timer, say_counter, timer_text, timer_of. cbn - [zitoa append]. destruct (to_datacounter (cl_timeout c) =? 0)%Z; reflexivity.
Qed.

Lemma positive_atoi : forall a n, counts a n -> atoi a = Some n /\ (0 <=? n)%Z = true.
Proof. intros a n C. apply counts_atoi in C. destruct C as [A B]. split; [exact A|]. now apply Z.leb_le. Qed.
(** C136: what a command says after it has set something *)
Lemma c136_done : forall name f c rest k v, lookup name setting_commands = Some f -> rest <> [] -> orders c (name :: rest) k v ->
  (forall a, rest = ["datacounter"; a] -> ~ counts a 0) ->
  snd (f c (name :: rest)) = map (Text WMsg) (confirms (name :: rest) v).
Proof.
  intros name f c rest k v L NR O NZ. inversion O as [cmd a l k0 v0 H2 H3|a n H1|a n H1| |nm a n H1 H2 H3|nm H1 H2| |a H1|H1|H1]; subst; try congruence; unfold setting_commands in L; cbn [lookup] in L.
  - unfold choices in H2. cbn [In] in H2.
    assert (G : forall cc x y, global (set_global cc x y) x = y) by (intros; unfold global, set_global; cbn; now rewrite update_lookup_same).
    repeat (destruct H2 as [E|H2]; [inversion E; subst name a l; clear E; cbn in L; inversion L; subst f;
      cbn [In] in H3; repeat (destruct H3 as [E|H3]; [inversion E; subst k v0; cbn -[global set_global append]; rewrite ?G; reflexivity|]); destruct H3|]). destruct H2.
  - cbn in L. inversion L; subst f. destruct (positive_atoi _ _ H1) as [A B]. unfold cmd_bcount.
    destruct (String.eqb_spec a "?") as [->|_]; [discriminate A|]. rewrite A, B. reflexivity.
  - cbn in L. inversion L; subst f. destruct (positive_atoi _ _ H1) as [A B]. unfold cmd_interval.
    destruct (String.eqb_spec a "?") as [->|_]; [discriminate A|]. destruct (String.eqb_spec a "off") as [->|_]; [discriminate A|]. rewrite A, B. reflexivity.
  - cbn in L. inversion L; subst f. reflexivity.
  - cbn in L. inversion L; subst f. destruct (positive_atoi _ _ H2) as [A B]. unfold cmd_timeout. rewrite A, B.
    unfold timer_names in H1. repeat (destruct H1 as [<-|H1]; [try reflexivity|]); [|destruct H1].
    cbn -[Z.eqb zitoa append]. destruct (Z.eqb_spec n 0) as [->|_]; [|reflexivity]. exfalso. eapply NZ; eauto.
  - cbn in L. inversion L; subst f. unfold timer_names in H1. repeat (destruct H1 as [<-|H1]; [first [congruence|reflexivity]|]). destruct H1.
  - cbn in L. inversion L; subst f. reflexivity.
  - exfalso. eapply NZ; eauto.
  - cbn in L. inversion L; subst f. unfold cmd_timeout. cbn in H1. inversion H1. rewrite H0. reflexivity.
Qed.
(** C136: a data counter of 0 is said to be the default *)
Lemma c136_default : forall c a, counts a 0 -> snd (cmd_timeout c ["timeout"; "datacounter"; a]) = [Text WMsg "datacounter:Default set to every 100 frames"].
Proof. intros c a C. destruct (positive_atoi _ _ C) as [A B]. unfold cmd_timeout. rewrite A, B. reflexivity. Qed.
(** C136: what it says to words it does not understand *)
Lemma c136_refused : forall name f c rest, lookup name setting_commands = Some f -> ~ understood (name :: rest) ->
  snd (f c (name :: rest)) = complains c name rest.
Proof.
  intros name f c rest L N. rewrite <- fine_understood in N. apply not_true_is_false in N. unfold setting_commands in L. cbn [lookup] in L.
  unfold complains. rewrite <- ?global_words.
  destruct rest as [|a [|b [|d r]]]; [discriminate N| | |].
  - cbn [fine] in N. rewrite orb_false_iff in N. destruct N as [Q N].
    repeat (match type of L with context [String.eqb name ?b] => destruct (String.eqb_spec name b) as [->|_] end;
      [inversion L; clear L; subst f|]); [..|discriminate L].
    all: cbn [one_of existsb orb] in N |- *.
    all: unfold cmd_bcount, cmd_checksum, cmd_descriptor, cmd_freespace, cmd_interval, cmd_reqtstamp, cmd_rxwilling, cmd_stream, cmd_timeout, cmd_timestamp, cmd_timezone, cmd_txwilling, one_of.
    all: cbn [existsb]; rewrite ?Q.
    all: repeat match goal with Q : _ = false, N : _ = false |- context [String.eqb ?a ?b] => is_var a; destruct (String.eqb_spec a b) as [->|_]; [first [discriminate Q|discriminate N|vm_compute in N; discriminate N|vm_compute in Q; discriminate Q]|] end.
    all: cbn [orb].
    all: try reflexivity.
    all: match type of N with context [positive ?a] => unfold positive in N; destruct (atoi a) as [n|]; [destruct (0 <=? n)%Z; [exfalso; cbn in N; rewrite ?orb_true_r in N; discriminate N|vm_compute; reflexivity]|vm_compute; reflexivity] end.
  - cbn [fine] in N. destruct (String.eqb_spec name "timeout") as [->|NT].
    + cbn in L. inversion L; subst f. cbn [andb] in N. rewrite orb_false_iff in N. destruct N as [NO N]. unfold cmd_timeout.
      change (match atoi b with Some n => if (0 <=? n)%Z then Some n else None | None => None end) with (positive b).
      destruct (positive b) as [n|]; [|rewrite NO; vm_compute; reflexivity]. cbn [is_some] in N. rewrite andb_true_r in N.
      unfold timer_names, one_of in N. cbn [existsb] in N. rewrite !orb_false_iff in N. destruct N as (N1 & N2 & N3 & N4 & N5 & _).
      rewrite N1, N2, N3, N4, N5. vm_compute. reflexivity.
    + repeat (match type of L with context [String.eqb name ?b] => destruct (String.eqb_spec name b) as [->|_] end;
        [first [congruence|inversion L; clear L; subst f; vm_compute; reflexivity]|]). discriminate L.
  - repeat (match type of L with context [String.eqb name ?b] => destruct (String.eqb_spec name b) as [->|_] end;
      [inversion L; clear L; subst f; vm_compute; reflexivity|]). discriminate L.
Qed.
(** C136: two requests are turned down without an error: 128 bit descriptors, and to switch
    off a timer that does not exist, to which nothing at all is said (defect) *)
Lemma c136_silent : forall c x,
  cmd_descriptor c ["descriptor"; "d128"] =
    (c, map (Text WMsg) ["128 bit descriptors not supported on this platform"; "Descriptor size is " ++ in_words c (Flag "descriptor")]) /\
  (~ In x timer_names -> cmd_timeout c ["timeout"; x; "off"] = (c, [])).
Proof.
  intros c x. split; [rewrite <- global_words; reflexivity|]. intros N. unfold cmd_timeout. change (atoi "off") with (@None Z). cbv iota beta.
  change (String.eqb "off" "off") with true. cbv iota. unfold timer_names in N.
  repeat match goal with |- context [String.eqb x ?b] => destruct (String.eqb_spec x b) as [->|_]; [exfalso; apply N; repeat (first [left; reflexivity|right])|] end. reflexivity.
Qed.
Example c136_ex :
  lookup "interval" setting_commands = Some cmd_interval /\ snd (cmd_interval sar_cli ["interval"]) = [Text WMsg "Beacons sent every 3 seconds"] /\
  ~ understood ["interval"; "soon"] /\ List.length (complains sar_cli "interval" ["soon"]) = 2%nat /\
  orders sar_cli ["freespace"; "no"] (Flag "freespace") (KText "no") /\
  confirms ["freespace"; "no"] (KText "no") = ["freespace is not advertised"].
Proof.
  split; [reflexivity|]. split; [vm_compute; reflexivity|]. split; [rewrite <- fine_understood; vm_compute; congruence|]. split; [reflexivity|].
  split; [|reflexivity]. apply (or_choice _ "freespace" "no" [(Flag "freespace", "no")]); [unfold choices; repeat (first [left; reflexivity|right])|left; reflexivity].
Qed.

Lemma task_finish : forall E s i args l s0, task_is s i (TStart args) -> start_step E s i args = Some (finish s0 i l) -> s0 = s ->
  exists s', task_step E s i = Some s' /\ only_shows s i l s'.
Proof. intros E s i args l s0 T S ->. rewrite (starts _ _ _ _ T), S. eexists. split; [reflexivity|eapply finish_shows; eauto]. Qed.
Lemma y_same_cli : forall s, y_with_cli s (y_cli s) = s. Proof. now destruct s. Qed.
Lemma y_same_exit : forall s, y_with_exit s (y_exit s) = s. Proof. now destruct s. Qed.
Lemma y_same_tran : forall s, y_with_tran s {| is_table := is_table (y_tran s); is_session := is_session (y_tran s); is_fs := is_fs (y_tran s); is_cwd := is_cwd (y_tran s) |} = s.
Proof. intros s. destruct s as [? ? [] ? ? ? ? ? ? ?]. reflexivity. Qed.
(** C137: with "?", a command shows its help and its usage, and does nothing else; for
    "quit" they are those of "exit" *)
Lemma c137_question : forall E s i name, task_is s i (TStart [name; "?"]) -> In name command_names -> ~ In name not_helped -> name <> "beacon" ->
  existsb holds_climu (y_tasks s) = false ->
  exists s', task_step E s i = Some s' /\ only_shows s i (help (if String.eqb name "quit" then "exit" else name)) s'.
Proof.
  intros E s i name T I NH NB FREE. unfold command_names in I. unfold not_helped in NH.
  repeat (destruct I as [<-|I];
    [first [exfalso; solve [congruence|apply NH; repeat (first [left; reflexivity|right])]
           |match goal with |- context [help ?x] => let y := eval vm_compute in x in change x with y end;
            rewrite <- help_eq by cmd; eapply task_finish; [exact T| |];
            [unfold start_step; cbn [lookup setting_commands transfer_commands];
             match goal with |- context [existsb holds_climu (y_tasks s)] => rewrite FREE | _ => idtac end;
             cbn -[help_of y_with_cli y_with_exit y_with_tran finish]; reflexivity
            |first [reflexivity|apply y_same_cli|apply y_same_exit|apply y_same_tran]]]|]). destruct I.
Qed.

(** C137: "beacon ?" too, though it also takes over the present settings *)
Lemma c137_beacon : forall E s i, task_is s i (TStart ["beacon"; "?"]) -> existsb holds_climu (y_tasks s) = false ->
  exists s', task_step E s i = Some s' /\ task_is s' i (TBeacon []) /\ y_shown s' = (y_shown s ++ help "beacon")%list /\
    y_sent s' = y_sent s /\ y_cli s' = y_cli s /\ y_tran s' = y_tran s /\
    bc_v4 (y_beacon s') = bc_v4 (y_beacon s) /\ bc_v6 (y_beacon s') = bc_v6 (y_beacon s) /\ bc_hosts (y_beacon s') = bc_hosts (y_beacon s).
Proof.
  intros E s i T FREE. rewrite (starts _ _ _ _ T). unfold start_step. cbn [lookup setting_commands transfer_commands].
  rewrite FREE. rewrite <- help_eq by cmd. eexists. split; [cbn -[help_of sf_setglobal become y_with_beacon y_show]; reflexivity|]. repeat split; try reflexivity.
  cbn -[set_nth]. eapply set_nth_same. exact T.
Qed.
(** C137: "ls" shows its usage as an error, whatever its words: what follows is never
    reached (defect) *)
Lemma c137_ls : forall E s i rest, task_is s i (TStart ("ls" :: rest)) ->
  exists s', task_step E s i = Some s' /\ only_shows s i [usage_error "ls"] s'.
Proof. intros E s i rest T. eapply task_finish; [exact T| |reflexivity]. rewrite <- usage_eq by cmd. reflexivity. Qed.
(** C137: "cancel" cancels nothing: it shows its words (defect) *)
Lemma c137_cancel : forall E s i rest, task_is s i (TStart ("cancel" :: rest)) ->
  exists s', task_step E s i = Some s' /\ only_shows s i [Text WMsg ("[" ++ String.concat " " ("cancel" :: rest) ++ "]")] s'.
Proof. intros E s i rest T. eapply task_finish; [exact T| |reflexivity]. reflexivity. Qed.
(** C137: "history" and "home" say that they do not exist; more words are errors *)
Lemma c137_unmade : forall E s i name rest, task_is s i (TStart (name :: rest)) -> rest <> ["?"] ->
  (name = "history" -> exists s', task_step E s i = Some s' /\
     only_shows s i (match rest with [] | [_] => [Text WMsg "History not implemented yet"] | _ => [usage_error "history"] end) s') /\
  (name = "home" -> exists s', task_step E s i = Some s' /\
     only_shows s i (match rest with [] => [Text WMsg "Home not implemented yet"] | _ => [usage_error "home"] end) s').
Proof.
  intros E s i name rest T N. split; intros ->; (eapply task_finish; [exact T| |reflexivity]);
    rewrite <- usage_eq by cmd; unfold start_step; cbn -[prusage finish]; unfold cmd_history, cmd_home, msg, err;
    destruct rest as [|a [|b r]]; try reflexivity; destruct (String.eqb_spec a "?"); try congruence; reflexivity.
Qed.
(** C137: "files", "tran", "exit" and "quit", with too many words or words they do not know, show their usage as an
    error, for "quit" that of "exit" *)
Lemma c137_errors : forall E s i name rest, task_is s i (TStart (name :: rest)) ->
  (name = "files" /\ rest <> [] /\ rest <> ["?"]) \/
  (name = "tran" /\ (2 <= List.length rest)%nat) \/
  ((name = "exit" \/ name = "quit") /\ rest <> [] /\ ~ In rest [["?"]; ["0"]; ["1"]]) ->
  exists s', task_step E s i = Some s' /\ only_shows s i [usage_error (if String.eqb name "quit" then "exit" else name)] s'.
Proof.
  intros E s i name rest T C. destruct C as [(-> & N1 & N2)|[(-> & L)|(X & N1 & N2)]].
  - eapply task_finish; [exact T| |reflexivity]. change (if String.eqb "files" "quit" then "exit" else "files") with "files". rewrite <- usage_eq by cmd.
    unfold start_step; cbn -[prusage finish]. unfold cmd_files. destruct rest as [|a [|b r]]; [congruence| |reflexivity].
    destruct (String.eqb_spec a "?"); [congruence|reflexivity].
  - eapply task_finish; [exact T| |reflexivity]. change (if String.eqb "tran" "quit" then "exit" else "tran") with "tran". rewrite <- usage_eq by cmd.
    unfold start_step; cbn -[prusage finish]. unfold cmd_tran. destruct rest as [|a [|b r]]; cbn in L; [lia|lia|reflexivity].
  - assert (E1 : cmd_exit (y_exit s) (name :: rest) = (y_exit s, [usage_error "exit"])).
    { rewrite <- usage_eq by cmd. unfold cmd_exit. destruct rest as [|a [|b r]]; [congruence| |reflexivity].
      destruct (String.eqb_spec a "?") as [->|]; [exfalso; apply N2; left; reflexivity|].
      destruct (String.eqb_spec a "0") as [->|]; [exfalso; apply N2; right; left; reflexivity|].
      destruct (String.eqb_spec a "1") as [->|]; [exfalso; apply N2; right; right; left; reflexivity|]. reflexivity. }
    replace (if String.eqb name "quit" then "exit" else name) with "exit" by (destruct X as [-> | ->]; reflexivity).
    eapply task_finish; [exact T| |apply y_same_exit]. 
    replace (start_step E s i (name :: rest)) with (let (z, l) := cmd_exit (y_exit s) (name :: rest) in Some (finish (y_with_exit s z) i l)) by (destruct X as [-> | ->]; reflexivity).
    rewrite E1. reflexivity.
Qed.
Example c137_ex :
  let s := yrun (ystart [] [] []) [YLine "s[1]:put ?"; YLine "s[2]:quit ?"; YLine "s[3]:ls ."; YLine "s[4]:cancel it"; YLine "s[5]:tran a b"; YLine "s[6]:beacon ?"] in
  task_is s 0 (TStart ["put"; "?"]) /\ In "put" command_names /\ ~ In "put" not_helped /\ existsb holds_climu (y_tasks s) = false /\
  task_is s 1 (TStart ["quit"; "?"]) /\ task_is s 2 (TStart ["ls"; "."]) /\ task_is s 3 (TStart ["cancel"; "it"]) /\
  task_is s 4 (TStart ["tran"; "a"; "b"]) /\ task_is s 5 (TStart ["beacon"; "?"]).
Proof.
  repeat split; try (vm_compute; reflexivity); [cmd|]. intros H. repeat (destruct H as [H|H]; [discriminate|]). exact H.
Qed.

Lemma says_find : forall fs cwd sardir all ttype peer fname l i,
  find (in_the_way (overwrites fs cwd sardir ttype fname) fname peer) l = Some i -> snd (tremove all i) = None ->
  initiator_says fs cwd sardir all l ttype peer fname = [objection (overwrites fs cwd sardir ttype fname) peer fname i].
Proof.
  intros fs cwd sardir all ttype peer fname l i F R. induction l as [|t r IH]; [discriminate F|]. cbn [find] in F. cbn [initiator_says].
  unfold in_the_way in F at 1. unfold without_connection in F at 1. unfold objection, without_connection.
  destruct (tr_conn t) eqn:C.
  - cbn [orb] in F. rewrite (is_in_one_of ttype). fold (overwrites fs cwd sardir ttype fname). fold (same_job fname peer t).
    destruct (overwrites fs cwd sardir ttype fname) eqn:O; cbn [orb] in F.
    + inversion F; subst i. rewrite C. reflexivity.
    + destruct (same_job fname peer t).
      * inversion F; subst i. rewrite C. reflexivity.
      * exact (IH F).
  - cbn [orb] in F. inversion F; subst i. rewrite C, R. reflexivity.
Qed.

Lemma transfer_step : forall E s i cmd rest, In cmd starters -> task_is s i (TStart (cmd :: rest)) ->
  exists tc, lookup cmd transfer_commands = Some tc /\ tc_type tc = cmd /\ tc_waits tc = one_of cmd ["put"; "putblind"; "give"; "delete"] /\
    task_step E s i = Some (start_transfer E s i tc (cmd :: rest)) /\
    tc_noaddr tc = after_bad_address cmd /\ tc_refused tc = after_refusal cmd /\
    err (prusage (tc_usage tc)) = if String.eqb cmd "give" then no_usage else usage_error cmd.
Proof.
  intros E s i cmd rest I T. rewrite (starts _ _ _ _ T). unfold starters in I.
  repeat (destruct I as [<-|I]; [eexists; split; [reflexivity|]; repeat (apply conj; [reflexivity|]); vm_compute; reflexivity|]). destruct I.
Qed.
(** C138: a command to start a transfer that is not given an address and a file shows its
    usage as an error; "give" says that there is no such command (defect) *)
Lemma c138_usage : forall E s i cmd rest, In cmd starters -> task_is s i (TStart (cmd :: rest)) -> wrong_words rest ->
  exists s', task_step E s i = Some s' /\ only_shows s i [if String.eqb cmd "give" then no_usage else usage_error cmd] s'.
Proof.
  intros E s i cmd rest I T W. destruct (transfer_step E s i cmd rest I T) as (tc & _ & _ & _ & -> & _ & _ & U). rewrite <- U.
  eexists. split; [reflexivity|]. unfold start_transfer.
  destruct rest as [|a [|f [|x r]]]; try (exfalso; exact W); [|eapply finish_shows; eauto].
  cbn in W. destruct (String.eqb_spec a "?"); [contradiction|]. eapply finish_shows; eauto.
Qed.
(** C138: if the address cannot be understood nothing is started; "get" does not even say so
    (defect) *)
Lemma c138_noaddr : forall E s i cmd a f, In cmd starters -> task_is s i (TStart [cmd; a; f]) -> address (ce_resolve E) a = None ->
  exists s', task_step E s i = Some s' /\ only_shows s i (after_bad_address cmd a) s'.
Proof.
  intros E s i cmd a f I T A. destruct (transfer_step E s i cmd [a; f] I T) as (tc & _ & _ & _ & -> & <- & _ & _).
  eexists. split; [reflexivity|]. unfold start_transfer, address in *. destruct (udp_address (ce_resolve E) a) as [[p|] [e|]]; try discriminate A; eapply finish_shows; eauto.
Qed.
(** C138: if another transfer is in the way nothing is started, and the first that is in the
    way is given as the reason; what is said after it depends on the command, and "give"
    says that the address is invalid though it is not (defect) *)
Lemma c138_refused : forall E s i cmd a f peer t, In cmd starters -> task_is s i (TStart [cmd; a; f]) -> address (ce_resolve E) a = Some peer ->
  let over := overwrites (is_fs (y_tran s)) (is_cwd (y_tran s)) (cl_sardir (y_cli s)) cmd f in
  find (in_the_way over f peer) (table_of s) = Some t ->
  exists s', task_step E s i = Some s' /\
    ends_with s i (if without_connection t then removelast (table_of s) else table_of s) (objection over peer f t :: after_refusal cmd a) s'.
Proof.
  intros E s i cmd a f peer t I T A over F. destruct (transfer_step E s i cmd [a; f] I T) as (tc & _ & TY & _ & -> & _ & <- & _).
  assert (R : tremove (table_of s) t = (removelast (table_of s), None)).
  { apply c62_removes_last. exists t. split; [eapply find_some; eauto|repeat split]. }
  eexists. split; [reflexivity|]. unfold start_transfer, address in *. destruct (udp_address (ce_resolve E) a) as [[p|] [e|]]; try discriminate A.
  inversion A; subst p. rewrite TY. unfold table_of in *. rewrite (says_find _ _ _ _ _ _ _ _ _ F) by (rewrite R; reflexivity).
  unfold initiator_check. rewrite initiator_loop_find. fold over. rewrite F. rewrite R. eapply finish_ends; eauto.
Qed.
(** C138: otherwise it goes on to add the transfer, without saying anything yet *)
Lemma c138_accepted : forall E s i cmd a f peer, In cmd starters -> task_is s i (TStart [cmd; a; f]) -> address (ce_resolve E) a = Some peer ->
  find (in_the_way (overwrites (is_fs (y_tran s)) (is_cwd (y_tran s)) (cl_sardir (y_cli s)) cmd f) f peer) (table_of s) = None ->
  exists s', task_step E s i = Some s' /\ task_is s' i (TAdd cmd peer f (one_of cmd ["put"; "putblind"; "give"; "delete"])) /\
    y_shown s' = y_shown s /\ y_tran s' = y_tran s /\ y_cli s' = y_cli s.
Proof.
  intros E s i cmd a f peer I T A F. destruct (transfer_step E s i cmd [a; f] I T) as (tc & _ & TY & W & -> & _ & _ & _).
  eexists. split; [reflexivity|]. unfold start_transfer, address in *. destruct (udp_address (ce_resolve E) a) as [[p|] [e|]]; try discriminate A.
  inversion A; subst p. rewrite TY. unfold table_of in *. unfold initiator_check. rewrite initiator_loop_find, F.
  split; [|repeat split]. rewrite W. cbn -[set_nth one_of]. eapply set_nth_same. exact T.
Qed.
(** C138: when the transfer has been added, this is said, and nothing else *)
Lemma c138_added : forall E s i kind peer f waits s', task_is s i (TAdd kind peer f waits) -> task_step E s i = Some s' -> y_dead s' = y_dead s -> y_dead s = false ->
  y_shown s' = (y_shown s ++ [Text WMsg ("Initiator Added " ++ kind ++ " Transfer to " ++ udpaddr_string peer ++ " " ++ f)])%list.
Proof.
  intros E s i kind peer f waits s' T S D1 D2. unfold task_step in S. unfold task_is in T. rewrite T in S.
  destruct (initiator_add (ienv_of E) (cl_sardir (y_cli s)) (y_cli s) (y_tran s) kind peer f) as [[t' t]| |]; cbn -[append] in S.
  - destruct waits; inversion S; subst s'; reflexivity.
  - inversion S; subst s'. cbn in D1. congruence.
  - inversion S; subst s'. cbn in D1. congruence.
Qed.
Example c138_ex :
  let s := yrun ex_two [YLine "s[4]:give 10.0.0.2 one"; YLine "s[5]:put 10.0.0.9 three"; YLine "s[6]:give me"; YLine "s[7]:take nowhere f"] in
  let over := overwrites (is_fs (y_tran s)) (is_cwd (y_tran s)) (cl_sardir (y_cli s)) "give" "one" in
  In "give" starters /\ task_is s 3 (TStart ["give"; "10.0.0.2"; "one"]) /\
  (exists peer t, address (ce_resolve ex_net) "10.0.0.2" = Some peer /\ find (in_the_way over "one" peer) (table_of s) = Some t /\
     objection over peer "one" t = Text WErr "Initiator one to 10.0.0.2:7542 currently in progress") /\
  task_is s 4 (TStart ["put"; "10.0.0.9"; "three"]) /\
  (exists peer, address (ce_resolve ex_net) "10.0.0.9" = Some peer /\
     find (in_the_way (overwrites (is_fs (y_tran s)) (is_cwd (y_tran s)) (cl_sardir (y_cli s)) "put" "three") "three" peer) (table_of s) = None) /\
  task_is s 5 (TStart ["give"; "me"]) /\ wrong_words ["me"] /\
  task_is s 6 (TStart ["take"; "nowhere"; "f"]) /\ address (fun _ => None) "nowhere" = None /\
  y_dead (yrun s [YStep ex_net 4; YStep ex_net 4]) = false.
Proof.
  cbv zeta. split; [cmd|]. split; [vm_compute; reflexivity|]. split.
  { destruct (table_of ex_two) as [|t r] eqn:T; [vm_compute in T; discriminate T|]. eexists. exists t. split; [vm_compute; reflexivity|].
    assert (H : table_of (yrun ex_two [YLine "s[4]:give 10.0.0.2 one"; YLine "s[5]:put 10.0.0.9 three"; YLine "s[6]:give me"; YLine "s[7]:take nowhere f"]) = t :: r) by (rewrite <- T; vm_compute; reflexivity).
    rewrite H. vm_compute in T. inversion T. split; vm_compute; reflexivity. }
  split; [vm_compute; reflexivity|]. split; [eexists; split; vm_compute; reflexivity|].
  split; [vm_compute; reflexivity|]. split; [cbn; discriminate|]. split; [vm_compute; reflexivity|]. split; vm_compute; reflexivity.
Qed.
