(** * What the other commands show and do *)

From Verif Require Import GoBase GoFacts Flags SpecFlags FlagsFacts FlagStrFacts SarFacts FlagsMain Config ConfigFacts Shipped SpecWire Data SpecFrames BuildFacts Beacon SpecBeacon BeaconMain Timestamp Fileio Trans Sarnet Transfer Words SpecWords WordsFacts SpecTransfer TransferMain Cli SpecCli CliFacts CliFacts2 CliMain RunFacts SpecRun RunMain SpecShow.
From Coq Require Import Permutation Sorted.
Local Open Scope string_scope.
Local Open Scope N_scope.

Lemma finish_ends : forall s i t table l, task_is s i t ->
  ends_with s i table l (finish (y_with_tran s {| is_table := table; is_session := is_session (y_tran s); is_fs := is_fs (y_tran s); is_cwd := is_cwd (y_tran s) |}) i l).
Proof.
  intros s i t table l T. constructor; try reflexivity.
  - red. cbn. eapply set_nth_same; eauto.
  - intros j N. cbn. apply set_nth_other; auto.
  - split; reflexivity.
Qed.
Lemma finish_shows : forall s i t l, task_is s i t -> only_shows s i l (finish s i l).
Proof.
  intros s i t l T. constructor; try reflexivity.
  - red. cbn. eapply set_nth_same; eauto.
  - intros j N. cbn. apply set_nth_other; auto.
  - split; reflexivity.
Qed.
Lemma ends_unique_shown : forall s i t1 l1 s', ends_with s i t1 l1 s' -> forall t2 l2, ends_with s i t2 l2 s' -> t1 = t2 /\ l1 = l2.
Proof.
  intros s i t1 l1 s' A t2 l2 B. split; [rewrite <- (ew_table _ _ _ _ _ A); apply (ew_table _ _ _ _ _ B)|].
  pose proof (ew_shown _ _ _ _ _ A) as X. rewrite (ew_shown _ _ _ _ _ B) in X. now apply app_inv_head in X.
Qed.
Lemma starts : forall E s i args, task_is s i (TStart args) -> task_step E s i = start_step E s i args.
Proof. intros E s i args T. unfold task_step. red in T. now rewrite T. Qed.
Lemma prusage_eq : forall c, In c command_names -> prusage c = "usage:" ++ usage_text c.
Proof.
  intros c I. unfold prusage, usage_text. unfold command_names in I.
  repeat (destruct I as [<-|I]; [reflexivity|]). destruct I.
Qed.
Lemma help_eq : forall c, In c command_names -> help_of c = help c.
Proof.
  intros c I. unfold help_of, help, msg, prhelp, prusage, help_text, usage_text. unfold command_names in I.
  repeat (destruct I as [<-|I]; [reflexivity|]). destruct I.
Qed.
Lemma usage_eq : forall c, In c command_names -> err (prusage c) = usage_error c.
Proof. intros c I. unfold err, usage_error. now rewrite prusage_eq. Qed.
Ltac cmd := unfold command_names; repeat (try (left; reflexivity); right).

(** ** rmtran *)

Lemma rmtran_step : forall E s i rest, task_is s i (TStart ("rmtran" :: rest)) ->
  task_step E s i = Some (or_die s (do ' (table, l) <- cmd_rmtran (is_table (y_tran s)) ("rmtran" :: rest);
          let t := y_tran s in
          Ret (finish (y_with_tran s {| is_table := table; is_session := is_session t; is_fs := is_fs t; is_cwd := is_cwd t |}) i l))).
Proof. intros E s i rest T. rewrite (starts _ _ _ _ T). reflexivity. Qed.
Lemma candidate_nth : forall addr session table t, last_candidate addr session table t <->
  exists i, nth_error table i = Some t /\ forall j u, (i < j)%nat -> nth_error table j = Some u -> connected u /\ ~ named addr session u.
Proof.
  intros addr session table t. split.
  - intros (b & a & -> & F). exists (length b). split.
    + rewrite nth_error_app2, Nat.sub_diag by lia. reflexivity.
    + intros j u L H. rewrite nth_error_app2 in H by lia. destruct (j - length b)%nat as [|k] eqn:D; [lia|]. cbn in H.
      apply nth_error_In in H. rewrite Forall_forall in F. auto.
  - intros (i & H & P). destruct (nth_error_split _ _ H) as (b & a & -> & L). exists b, a. split; [reflexivity|].
    apply Forall_forall. intros u I. apply In_nth_error in I. destruct I as (k & K). apply (P (length b + S k)%nat u); [lia|].
    rewrite nth_error_app2 by lia. replace (length b + S k - length b)%nat with (S k) by lia. exact K.
Qed.

(** C92: if the last transfer that decides is the one that is meant, the last transfer of
    the table is removed, whichever that is (defect) *)
Lemma c92_removes : forall E s i kind addr n session t, task_is s i (TStart ["rmtran"; kind; addr; n]) -> session_text n session ->
  last_candidate addr session (table_of s) t -> named addr session t ->
  exists s', task_step E s i = Some s' /\ ends_with s i (removelast (table_of s)) [] s'.
Proof.
  intros E s i kind addr n session t T ST LC NM. rewrite (rmtran_step _ _ _ _ T). cbn [cmd_rmtran].
  apply parse_uint_spec in ST. rewrite ST. apply candidate_nth in LC. destruct LC as (k & H & P).
  unfold table_of in *. pose proof (c63_match (is_table (y_tran s)) addr session) as (M & _).
  rewrite (proj2 (M (PSlot k))) by (exists k, t; repeat split; auto; try apply NM; apply (P _ _ H0 H1)).
  cbn [obind tread tm_table]. rewrite H. rewrite c62_removes_last by (exists t; split; [eapply nth_error_In; eauto|repeat split]).
  cbn [obind or_die]. eexists. split; [reflexivity|]. eapply finish_ends; eauto.
Qed.
(** C92: so one that is meant stays as long as another one was started after it, and that
    one goes instead (defect) *)
Lemma c92_wrong : forall E s i kind addr n session t before after last, task_is s i (TStart ["rmtran"; kind; addr; n]) -> session_text n session ->
  table_of s = (before ++ t :: after ++ [last])%list -> named addr session t ->
  Forall (fun u => connected u /\ ~ named addr session u) (after ++ [last]) ->
  exists s', task_step E s i = Some s' /\ ends_with s i (before ++ t :: after)%list [] s'.
Proof.
  intros E s i kind addr n session t before after last T ST TE NM F.
  destruct (c92_removes E s i kind addr n session t T ST) as (s' & H & W); auto.
  { exists before, (after ++ [last])%list. auto. }
  exists s'. split; auto. rewrite TE in W.
  replace (removelast (before ++ t :: after ++ [last])) with (before ++ t :: after)%list in W; auto.
  rewrite app_comm_cons, app_assoc. now rewrite removelast_last.
Qed.
(** C92: if every transfer is connected and none is meant, nothing is removed *)
Lemma c92_absent : forall E s i kind addr n session, task_is s i (TStart ["rmtran"; kind; addr; n]) -> session_text n session ->
  Forall (fun u => connected u /\ ~ named addr session u) (table_of s) ->
  exists s', task_step E s i = Some s' /\
    only_shows s i [Text WMsg ("No such transfer:" ++ kind ++ " " ++ addr ++ " " ++ addr); usage_error "rmtran"] s'.
Proof.
  intros E s i kind addr n session T ST F. rewrite (rmtran_step _ _ _ _ T). cbn [cmd_rmtran].
  apply parse_uint_spec in ST. rewrite ST. unfold table_of in *. rewrite Forall_forall in F.
  pose proof (c63_match (is_table (y_tran s)) addr session) as (_ & M & _). rewrite (proj2 M) by (intros u I; apply (F u I)).
  cbn [obind or_die]. eexists. split; [reflexivity|]. rewrite usage_eq by cmd. eapply finish_ends; eauto.
Qed.
(** C92: if one without a connection comes first, the program ends (defect) *)
Lemma c92_dies : forall E s i kind addr n session t, task_is s i (TStart ["rmtran"; kind; addr; n]) -> session_text n session ->
  last_candidate addr session (table_of s) t -> ~ connected t -> task_step E s i = Some (y_kill s).
Proof.
  intros E s i kind addr n session t T ST LC NC. rewrite (rmtran_step _ _ _ _ T). cbn [cmd_rmtran].
  apply parse_uint_spec in ST. rewrite ST. apply candidate_nth in LC. destruct LC as (k & H & P).
  unfold table_of in *. pose proof (c63_match (is_table (y_tran s)) addr session) as (_ & _ & M & _).
  rewrite (proj2 M) by (exists k, t; repeat split; auto; apply (P _ _ H0 H1)). reflexivity.
Qed.
(** C92: there is no other case *)
Lemma c92_cases : forall addr session table,
  Forall (fun u => connected u /\ ~ named addr session u) table \/
  exists t, last_candidate addr session table t /\ (named addr session t \/ ~ connected t).
Proof.
  intros addr session table. induction table as [|x table IH] using rev_ind; [left; constructor|].
  pose proof (remote_string_spec x) as R. destruct (remote_string (tr_conn x)) as [a| |]; [| |destruct R].
  - assert (C : connected x) by (exists a; apply R; auto).
    assert (D : named addr session x \/ ~ named addr session x).
    { unfold named. destruct (N.eq_dec (tr_session x) session), (string_dec addr a); [left; split; [apply R; auto|auto]|right..]; intros (X & Y); try tauto; apply R in X; tauto. }
    destruct D as [D|D]; [right; exists x; split; auto; exists table, []; auto|].
    destruct IH as [F|(t & (b & a' & -> & F) & W)]; [left; apply Forall_app; auto|].
    right. exists t. split; auto. exists b, (a' ++ [x])%list. split; [now rewrite <- app_assoc|apply Forall_app; auto].
  - right. exists x. split; auto. exists table, []. auto.
Qed.
(** C92: and with any other words nothing is removed *)
Lemma c92_other : forall E s i args, task_is s i (TStart ("rmtran" :: args)) ->
  (forall kind addr n session, args = [kind; addr; n] -> ~ session_text n session) ->
  exists s' l, task_step E s i = Some s' /\ only_shows s i l s' /\
    (args = ["?"] -> l = help "rmtran") /\ (args <> ["?"] -> In (usage_error "rmtran") l).
Proof.
  intros E s i args T N. rewrite (rmtran_step _ _ _ _ T). rewrite <- help_eq, <- usage_eq by cmd.
  assert (G : forall l, cmd_rmtran (is_table (y_tran s)) ("rmtran" :: args) = Ret (is_table (y_tran s), l) ->
    (args = ["?"] -> l = help_of "rmtran") -> (args <> ["?"] -> In (err (prusage "rmtran")) l) ->
    exists s' l, Some (or_die s (do ' (table, l) <- cmd_rmtran (is_table (y_tran s)) ("rmtran" :: args);
          let t := y_tran s in
          Ret (finish (y_with_tran s {| is_table := table; is_session := is_session t; is_fs := is_fs t; is_cwd := is_cwd t |}) i l))) = Some s' /\
      only_shows s i l s' /\ (args = ["?"] -> l = help_of "rmtran") /\ (args <> ["?"] -> In (err (prusage "rmtran")) l)).
  { intros l -> A B. cbn [obind or_die]. eexists. exists l. split; [reflexivity|]. split; [eapply finish_ends; eauto|auto]. }
  destruct args as [|a [|b [|c [|]]]]; cbn [cmd_rmtran] in *.
  - eapply G; [reflexivity|discriminate|intros _; right; left; reflexivity].
  - destruct (String.eqb_spec a "?") as [->|NE].
    + eapply G; [reflexivity|reflexivity|congruence].
    + eapply G; [reflexivity|congruence|intros _; left; reflexivity].
  - eapply G; [reflexivity|discriminate|intros _; left; reflexivity].
  - destruct (parse_uint 32 c) as [n|] eqn:P.
    + exfalso. apply parse_uint_spec in P. exact (N a b c n eq_refl P).
    + eapply G; [reflexivity|discriminate|intros _; left; reflexivity].
  - eapply G; [reflexivity|discriminate|intros _; left; reflexivity].
Qed.

(** A world in which addresses resolve to themselves *)
Definition ex_net : cenv :=
  {| ce_resolve := fun s => Some {| ua_ip := hd "" (split_two ":" s); ua_port := 7542; ua_zone := "" |}; ce_dial := fun _ => Some "10.0.0.1:4000";
     ce_sys := {| se_getwd := None; se_statfs := Some (4096, 1000) |}; ce_write := true;
     ce_now := exi_time; ce_pid := 77; ce_chdir := true |}.
(** ... and in which nothing can be dialled *)
Definition ex_nodial : cenv :=
  {| ce_resolve := ce_resolve ex_net; ce_dial := fun _ => None; ce_sys := ce_sys ex_net; ce_write := true;
     ce_now := exi_time; ce_pid := 77; ce_chdir := true |}.
(** Two transfers are started, and the first is to be removed *)
Definition ex_two : ystate :=
  yrun ex_ystart [YLine "s[1]:get 10.0.0.2 one"; YStep ex_net 0; YStep ex_net 0; YLine "s[2]:take 10.0.0.3 two"; YStep ex_net 1; YStep ex_net 1;
                  YLine "s[3]:rmtran get 10.0.0.2:7542 78"].
Example c92_ex :
  task_is ex_two 2 (TStart ["rmtran"; "get"; "10.0.0.2:7542"; "78"]) /\ session_text "78" 78 /\
  (exists t, named "10.0.0.2:7542" 78 t /\ last_candidate "10.0.0.2:7542" 78 (table_of ex_two) t) /\
  map tr_filename (table_of ex_two) = ["one"; "two"] /\
  map tr_filename (table_of (yrun ex_two [YStep ex_net 2])) = ["one"].
Proof.
  split; [vm_compute; reflexivity|]. split; [apply parse_uint_spec; vm_compute; reflexivity|]. split; [|split; vm_compute; reflexivity].
  assert (V : map (fun t => (remote_string (tr_conn t), tr_session t)) (table_of ex_two) = [(Ret "10.0.0.2:7542", 78); (Ret "10.0.0.3:7542", 79)]) by (vm_compute; reflexivity).
  generalize dependent (table_of ex_two). intros l V.
  assert (C : forall x a, remote_string (tr_conn x) = Ret a -> forall b, connected_to b x <-> b = a).
  { intros x a H. pose proof (remote_string_spec x) as R. now rewrite H in R. }
  destruct l as [|t [|u [|]]]; try discriminate V. cbn [map] in V. inversion V as [[V1 V2 V3 V4]]. exists t. split.
  - split; [|reflexivity]. apply (C _ _ V1). reflexivity.
  - exists [], [u]. split; auto. constructor; auto. split; [exists "10.0.0.3:7542"; apply (C _ _ V3); auto|].
    intros (X & _). apply (C _ _ V3) in X. discriminate.
Qed.

(** ** Lists of transfers *)

Lemma filter_all : forall {A} (l : list A), filter (fun _ => true) l = l.
Proof. induction l as [|x l IH]; [reflexivity|]. cbn. now rewrite IH. Qed.
Lemma info_all : forall table, info table "" = listing "" table.
Proof. intros table. unfold info, listing. rewrite (filter_ext _ (fun _ => true)) by reflexivity. rewrite filter_all. reflexivity. Qed.
Lemma info_kind : forall table kind, kind <> "" -> info table kind = listing kind (of_kind kind table).
Proof.
  intros table kind N. unfold info, listing, of_kind. rewrite (filter_ext _ (fun t => String.eqb (tr_ttype t) kind)); [reflexivity|].
  intros t. rewrite (proj2 (String.eqb_neq kind "") N). reflexivity.
Qed.

(** C93: "files" and "tran" list every transfer, in the order they were started *)
Lemma c93_all : forall E s i cmd, cmd = "files" \/ cmd = "tran" -> task_is s i (TStart [cmd]) ->
  exists s', task_step E s i = Some s' /\ only_shows s i (listing "" (table_of s)) s'.
Proof.
  intros E s i cmd C T. rewrite (starts _ _ _ _ T). rewrite <- info_all. eexists. destruct C as [-> | ->]; split; try reflexivity; eapply finish_shows; eauto.
Qed.
(** C93: "tran" with a kind lists those of that kind; other words are errors *)
Lemma c93_tran : forall E s i a, task_is s i (TStart ["tran"; a]) ->
  exists s', task_step E s i = Some s' /\
    only_shows s i (if String.eqb a "?" then help "tran" else if is_in a listed_kinds then listing a (of_kind a (table_of s)) else [usage_error "tran"]) s'.
Proof.
  intros E s i a T. rewrite (starts _ _ _ _ T). eexists. split; [reflexivity|].
  replace (if String.eqb a "?" then help "tran" else _) with (cmd_tran (table_of s) ["tran"; a]); [eapply finish_shows; eauto|].
  rewrite <- help_eq, <- usage_eq by cmd. unfold cmd_tran. destruct (String.eqb a "?"); [reflexivity|].
  change ttypes with listed_kinds. rewrite is_in_one_of.
  destruct (is_in a listed_kinds) eqn:I; [|reflexivity]. apply info_kind. intros ->. discriminate I.
Qed.
(** C93: a command that starts transfers lists, without words, those of its kind *)
Lemma c93_kind : forall E s i cmd kind, In (cmd, kind) [("get", "get"); ("getdir", "getdir"); ("take", "getrm"); ("put", "put"); ("putblind", "putblind"); ("give", "putrm"); ("delete", "rm")] ->
  task_is s i (TStart [cmd]) ->
  exists s', task_step E s i = Some s' /\ only_shows s i (listing kind (of_kind kind (table_of s))) s'.
Proof.
  intros E s i cmd kind I T. rewrite (starts _ _ _ _ T). rewrite <- info_kind.
  2:{ repeat (destruct I as [X|I]; [inversion X; discriminate|]). destruct I. }
  eexists. repeat (destruct I as [X|I]; [inversion X; subst; split; [reflexivity|eapply finish_shows; eauto]|]). destruct I.
Qed.

(** The kinds in the table are those the commands start *)
Definition kinds_ok (s : ystate) : Prop :=
  (forall t, In t (table_of s) -> In (tr_ttype t) started_kinds /\ tr_direction t = initiator) /\
  (forall a b c d, In (TAdd a b c d) (y_tasks s) -> In a started_kinds).

Lemma In_removelast : forall {A} (l : list A) x, In x (removelast l) -> In x l.
Proof.
  intros A l x. destruct l as [|y l _] using rev_ind; [auto|]. rewrite removelast_last. intros I. apply in_or_app; auto.
Qed.
Lemma tremove_sub : forall l t x, In x (fst (tremove l t)) -> In x l.
Proof.
  intros l t x. unfold tremove. assert (G : forall n l', tremove_loop l t n = Some l' -> In x l' -> In x l).
  { induction n as [|n IH]; intros l' H I; [discriminate|]. cbn [tremove_loop] in H. destruct (tlookup_loop _ _ _ _); [|eauto].
    inversion H; subst. apply in_app_or in I. destruct I as [I|I].
    - rewrite <- (firstn_skipn n l). apply in_or_app. auto.
    - rewrite <- (firstn_skipn (S n) l). apply in_or_app. auto. }
  destruct (tremove_loop l t (length l)) as [l'|] eqn:R; cbn [fst]; eauto.
Qed.
Lemma check_sub : forall fs cwd sardir table ttype peer fname l, initiator_check fs cwd sardir table ttype peer fname = Some l -> forall x, In x l -> In x table.
Proof.
  intros fs cwd sardir table ttype peer fname. unfold initiator_check.
  assert (G : forall r l, initiator_loop fs cwd sardir table r ttype peer fname = Some l -> forall x, In x l -> In x table).
  { induction r as [|i r IH]; intros l H x I; [discriminate|]. cbn [initiator_loop] in H. destruct (tr_conn i).
    - destruct (_ && _); [inversion H; subst; auto|]. destruct (_ && _); [inversion H; subst; auto|eauto].
    - inversion H; subst. eapply tremove_sub; eauto. }
  apply G.
Qed.
Lemma rmtran_sub : forall table args table' l, cmd_rmtran table args = Ret (table', l) -> forall x, In x table' -> In x table.
Proof.
  intros table args table' l H x I. destruct args as [|a [|b [|c [|d [|]]]]]; cbn [cmd_rmtran] in H; try (inversion H; subst; auto; fail).
  destruct (parse_uint 32 d); [|inversion H; subst; auto].
  destruct (tmatch table c n) as [[q|]| |]; try discriminate; cbn [obind] in H; [|inversion H; subst; auto].
  destruct (tread _ q) as [t|]; [|discriminate]. pose proof (tremove_sub table t x) as S. destruct (tremove table t) as (t' & e). inversion H; subst. auto.
Qed.
Lemma set_nth_in : forall l i t x, In x (set_nth l i t) -> x = t \/ In x l.
Proof.
  intros l i t x I. apply In_nth_error in I. destruct I as (j & I). apply set_nth_cases in I. destruct I as [(_ & I)|(_ & I)]; [auto|right; eapply nth_error_In; eauto].
Qed.
Lemma finish_kinds : forall s i l table t, kinds_ok s -> (forall x, In x table -> In x (table_of s)) ->
  forall s', y_tasks s' = set_nth (y_tasks s) i t -> table_of s' = table -> (forall a b c d, t = TAdd a b c d -> In a started_kinds) ->
  kinds_ok (y_show s' l).
Proof.
  intros s i l table t (K1 & K2) S s' T E A. split.
  - intros x I. apply K1, S. rewrite <- E. exact I.
  - intros a b c d I. change (y_tasks (y_show s' l)) with (y_tasks s') in I. rewrite T in I. apply set_nth_in in I. destruct I as [I|I]; [eapply A; eauto|eapply K2; eauto].
Qed.
Lemma transfer_kinds : forall name tc, lookup name transfer_commands = Some tc -> In (tc_type tc) started_kinds.
Proof.
  intros name tc L. apply lookup_In in L. unfold transfer_commands in L. cbv zeta in L.
  repeat (destruct L as [X|L]; [inversion X; subst; cbv [tc_type started_kinds]; repeat (try (left; reflexivity); right)|]). destruct L.
Qed.
Lemma kinds_start : forall E s i args s', kinds_ok s -> start_step E s i args = Some s' -> kinds_ok s'.
Proof.
  intros E s i args s' K H.
  assert (D : forall l s1, y_tasks s1 = set_nth (y_tasks s) i TEnd -> (forall x, In x (table_of s1) -> In x (table_of s)) -> kinds_ok (y_show s1 l)).
  { intros l s1 T S. eapply finish_kinds; eauto. discriminate. }
  unfold start_step in H. set (name := match args with a :: _ => a | [] => "" end) in *. clearbody name.
  destruct (lookup name setting_commands) as [f|].
  { destruct (existsb _ _); [discriminate|]. destruct (f (y_cli s) args) as (c & l). inj H. apply D; auto. }
  destruct (lookup name transfer_commands) as [tc|] eqn:TC.
  { inj H. unfold start_transfer. destruct args as [|x [|a [|g [|]]]]; try (apply D; auto; fail).
    destruct (udp_address (ce_resolve E) a) as ([peer|] & [e|]); try (apply D; auto; fail).
    destruct (initiator_check _ _ _ _ _ _ _) as [l|] eqn:IC.
    - apply D; [reflexivity|]. apply (check_sub _ _ _ _ _ _ _ _ IC).
    - destruct K as (K1 & K2). split; auto. intros a0 b c d I. cbn in I. apply set_nth_in in I. destruct I as [I|I]; [|eapply K2; eauto].
      inversion I; subst. eapply transfer_kinds; eauto. }
  destruct (String.eqb name "beacon").
  { destruct (existsb _ _); [discriminate|]. destruct (cmd_beacon _ _ _) as ((b & l) & todo). inj H.
    eapply finish_kinds; [exact K| |reflexivity|reflexivity|discriminate]. auto. }
  assert (O : forall m : outcome (list shown), kinds_ok (or_die s (do l <- m; Ret (finish s i l)))).
  { intros m. destruct m; cbn [obind or_die]; [apply D; auto|..]; destruct K; split; auto. }
  repeat match type of H with
  | (if ?b then _ else _) = _ => destruct b; [first [inj H; first [apply D; solve [auto] | apply O | idtac] | destruct (cmd_exit _ _) as (z & l); inj H; apply D; solve [auto]]|]
  end; [|discriminate].
  destruct (cmd_rmtran _ _) as [(table & l)| |] eqn:R; cbn [obind or_die]; [|destruct K; split; auto..].
  apply D; [reflexivity|]. apply (rmtran_sub _ _ _ _ R).
Qed.
Lemma add_kinds : forall E sardir c st ttype peer fname st' t, initiator_add E sardir c st ttype peer fname = Ret (st', t) ->
  is_table st' = (is_table st ++ [t])%list /\ tr_ttype t = ttype /\ tr_direction t = initiator.
Proof.
  intros E sardir c st ttype peer fname st' t H. unfold initiator_add in H. cbv zeta in H. destruct (file_meta _ _ _ _); [|discriminate..]. cbn [obind] in H.
  destruct (copy_cliflags c) as (cf & [e|]); [discriminate|]. inversion H; subst. auto.
Qed.
Lemma kinds_step : forall s l s', kinds_ok s -> ystep s l = Some s' -> kinds_ok s'.
Proof.
  intros s l s' K H. unfold ystep in H. destruct (y_dead s); [discriminate|]. destruct l as [line|E i|fs ps]; [| |inj H; destruct K; split; auto].
  { inj H. destruct (get_line line) as [(g & l)| |]; cbn [obind or_die]; [|destruct K; split; auto..].
    destruct K as (K1 & K2). destruct g as [args|]; split; auto.
    intros a b c d I. cbn in I. apply in_app_or in I. destruct I as [I|[I|[]]]; [eapply K2; eauto|discriminate]. }
  unfold task_step in H. destruct (nth_error (y_tasks s) i) as [t|] eqn:N; [|discriminate].
  destruct t as [args|todo|ttype peer fname waits|ch t|[e|]|]; try discriminate.
  - eapply kinds_start; eauto.
  - assert (B : forall s1 todo', y_tran s1 = y_tran s -> y_tasks s1 = set_nth (y_tasks s) i todo' -> (forall a b c d, todo' <> TAdd a b c d) -> kinds_ok s1).
    { intros s1 todo' T Y A. destruct K as (K1 & K2). split; [unfold table_of; rewrite T; exact K1|].
      intros a b c d I. rewrite Y in I. apply set_nth_in in I. destruct I as [I|I]; [symmetry in I; now apply A in I|eapply K2; eauto]. }
    destruct todo as [|x rest]; inj H; [eapply B; [reflexivity|reflexivity|discriminate]|].
    destruct (beacon_step E s i x rest) as [s1| |] eqn:BS; cbn [or_die]; [|destruct K; split; auto..].
    destruct (beacon_step_kept _ _ _ _ _ _ BS) as (_ & _ & _ & _ & T & _ & _ & _ & _ & todo & Y). eapply B; eauto. discriminate.
  - inj H. destruct (initiator_add _ _ _ _ _ _ _) as [(st & t)| |] eqn:A; cbn [obind or_die]; [|destruct K; split; auto..].
    destruct (add_kinds _ _ _ _ _ _ _ _ _ A) as (T1 & T2 & T3). destruct K as (K1 & K2).
    assert (KT : forall x, In x (is_table st) -> In (tr_ttype x) started_kinds /\ tr_direction x = initiator).
    { intros x I. rewrite T1 in I. apply in_app_or in I. destruct I as [I|[<-|[]]]; [apply K1; auto|]. split; [rewrite T2; eapply K2; eapply nth_error_In; eauto|auto]. }
    destruct waits; (split; [exact KT|]); intros a b c d I; cbn in I.
    + apply in_app_or in I. destruct I as [I|[I|[]]]; [|discriminate]. apply set_nth_in in I. destruct I as [I|I]; [discriminate|eapply K2; eauto].
    + apply set_nth_in in I. destruct I as [I|I]; [discriminate|eapply K2; eauto].
  - destruct (nth_error (y_chans s) ch) as [[|e l]|]; try discriminate. inj H.
    eapply finish_kinds; [exact K| |reflexivity|reflexivity|discriminate].
    intros x. cbn. destruct e; [apply tremove_sub|auto].
  - inj H. destruct K as (K1 & K2). split; auto. intros a b c d I. cbn in I. apply set_nth_in in I. destruct I as [I|I]; [discriminate|eapply K2; eauto].
Qed.
Lemma reachable_kinds : forall s, reachable s -> kinds_ok s.
Proof.
  intros s (fs & cwd & peers & ls & ->). assert (G : forall ls s0, kinds_ok s0 -> kinds_ok (yrun s0 ls)).
  { clear ls; induction ls as [|l ls IH]; intros s0 K; [exact K|]. cbn [yrun]. apply IH. destruct (ystep s0 l) eqn:Y; [eapply kinds_step; eauto|auto]. }
  apply G. split; [intros t []|intros a b c d []].
Qed.
(** C93: every transfer in the table was started from here, as one of the seven kinds *)
Lemma c93_kinds : forall s t, reachable s -> In t (table_of s) -> In (tr_ttype t) started_kinds /\ tr_direction t = initiator.
Proof. intros s t R I. apply (reachable_kinds s R); auto. Qed.
(** C93: so "take", "give" and "delete" never list anything, nor does "tran" with what
    they ask for (defect) *)
Lemma c93_never : forall E s i ws kind, reachable s ->
  In (ws, kind) [(["take"], "getrm"); (["give"], "putrm"); (["delete"], "rm"); (["tran"; "getrm"], "getrm"); (["tran"; "putrm"], "putrm");
                 (["tran"; "rm"], "rm"); (["tran"; "rmdir"], "rmdir")] ->
  task_is s i (TStart ws) ->
  exists s', task_step E s i = Some s' /\ only_shows s i [Text WMsg ("No " ++ kind ++ " transfers currently in progress")] s'.
Proof.
  intros E s i ws kind R I T.
  assert (NK : ~ In kind started_kinds) by (repeat (destruct I as [X|I]; [inversion X; subst; unfold started_kinds; intros Y; repeat (destruct Y as [Y|Y]; [discriminate|]); destruct Y|]); destruct I).
  assert (Z : of_kind kind (table_of s) = []).
  { unfold of_kind. pose proof (fun t => c93_kinds s t R) as K. revert K. generalize (table_of s). intros l K. induction l as [|t l IH]; [reflexivity|]. cbn [filter].
    destruct (String.eqb_spec (tr_ttype t) kind) as [<-|]; [exfalso; apply NK, (K t); left; auto|]. apply IH. intros u J. apply K. right; auto. }
  assert (L : listing kind (of_kind kind (table_of s)) = [Text WMsg ("No " ++ kind ++ " transfers currently in progress")]) by (rewrite Z; reflexivity).
  repeat (destruct I as [X|I]; [inversion X; subst ws kind;
    first [ destruct (c93_kind E s i _ _ (or_intror (or_intror (or_introl eq_refl))) T) as (s' & S & O)
          | destruct (c93_kind E s i _ _ (or_intror (or_intror (or_intror (or_intror (or_intror (or_introl eq_refl)))))) T) as (s' & S & O)
          | destruct (c93_kind E s i _ _ (or_intror (or_intror (or_intror (or_intror (or_intror (or_intror (or_introl eq_refl))))))) T) as (s' & S & O)
          | destruct (c93_tran E s i _ T) as (s' & S & O); cbv [String.eqb Ascii.eqb Bool.eqb] in O; rewrite (proj2 (is_in_true _ _)) in O by (unfold listed_kinds; repeat (try (left; reflexivity); right)) ];
    exists s'; split; [exact S|]; now rewrite L in O|]).
  destruct I.
Qed.
Example c93_ex :
  let s := yrun ex_two [YLine "s[4]:take"; YLine "s[5]:tran get"; YLine "s[6]:files"] in
  reachable s /\ task_is s 3 (TStart ["take"]) /\ map tr_ttype (table_of s) = ["get"; "take"] /\
  y_shown (yrun s [YStep ex_net 3; YStep ex_net 4; YStep ex_net 5]) =
    [Text WMsg "Initiator Added get Transfer to 10.0.0.2:7542 one"; Text WMsg "Initiator Added take Transfer to 10.0.0.3:7542 two";
     Text WMsg "No getrm transfers currently in progress"; Rows [("get", "10.0.0.2:7542", "one")];
     Rows [("get", "10.0.0.2:7542", "one"); ("take", "10.0.0.3:7542", "two")]].
Proof.
  split; [apply reachable_run; unfold ex_two; apply reachable_run; exists exi_fs, [], [], []; reflexivity|].
  repeat split; vm_compute; reflexivity.
Qed.

(** ** Commands that only show *)

Ltac eachcmd I := repeat (destruct I as [<-|I]; [|]); [..|destruct I].
(** C94: these commands change nothing, whatever their words, and never wait *)
Lemma c94_shows : forall E s i cmd rest, In cmd ["cancel"; "clear"; "files"; "help"; "?"; "history"; "home"; "ls"; "tran"; "usage"] ->
  task_is s i (TStart (cmd :: rest)) -> exists s' l, task_step E s i = Some s' /\ only_shows s i l s'.
Proof.
  intros E s i cmd rest I T. rewrite (starts _ _ _ _ T).
  eachcmd I; (eexists; eexists; split; [reflexivity|eapply finish_shows; eauto]).
Qed.
Lemma peers_loop : forall l, match ofold (fun _ p => do _ <- ts_print_ok (p_created p); ts_print_ok (p_updated p)) tt l with
  | Ret _ => Forall (fun p => writable (p_created p) /\ writable (p_updated p)) l
  | _ => exists p, In p l /\ ~ (writable (p_created p) /\ writable (p_updated p))
  end.
Proof.
  assert (W : forall t, (ts_print_ok t = Ret tt /\ writable t) \/ (((forall x, ts_print_ok t <> Ret x)) /\ ~ writable t)).
  { intros t. unfold ts_print_ok, writable. destruct (st_getstr sar (t_header t)) as [n| |]; cbn [obind]; [left; eauto|right..]; (split; [discriminate|intros (x & X); discriminate]). }
  induction l as [|p l IH]; cbn [ofold]; [constructor|].
  destruct (W (p_created p)) as [(-> & W1)|(B & W1)]; cbn [obind].
  - destruct (W (p_updated p)) as [(-> & W2)|(B & W2)]; cbn [obind].
    + destruct (ofold _ tt l); [constructor; auto|..]; destruct IH as (q & I & Q); exists q; (split; [right; auto|auto]).
    + destruct (ts_print_ok (p_updated p)) as [u| |]; [exfalso; eapply B; eauto|..]; cbn [obind]; exists p; (split; [left; auto|tauto]).
  - destruct (ts_print_ok (p_created p)) as [u| |]; [exfalso; eapply B; eauto|..]; cbn [obind]; exists p; (split; [left; auto|tauto]).
Qed.
(** C94: nor does "peers", which shows every peer, as long as their times can be written *)
Lemma c94_peers : forall E s i, task_is s i (TStart ["peers"]) -> Forall (fun p => writable (p_created p) /\ writable (p_updated p)) (y_peers s) ->
  exists s', task_step E s i = Some s' /\
    only_shows s i (match y_peers s with [] => [Text WMsg "No Peers"] | _ => [Peers (y_peers s)] end) s'.
Proof.
  intros E s i T F. rewrite (starts _ _ _ _ T).
  change (start_step E s i ["peers"]) with (Some (or_die s (do l <- cmd_peers (y_peers s) ["peers"]; Ret (finish s i l)))).
  assert (C : cmd_peers (y_peers s) ["peers"] = Ret (match y_peers s with [] => [Text WMsg "No Peers"] | _ => [Peers (y_peers s)] end)).
  { cbn [cmd_peers]. destruct (y_peers s) as [|p l] eqn:Y; [reflexivity|]. pose proof (peers_loop (p :: l)) as P.
    destruct (ofold _ tt (p :: l)); [reflexivity|exfalso..]; destruct P as (q & I & Q); rewrite Forall_forall in F; apply Q, F; auto. }
  rewrite C. cbn [obind or_die]. eexists. split; [reflexivity|eapply finish_shows; eauto].
Qed.
(** C94: "?" after a command shows its help *)
Lemma c94_help : forall E s i cmd, In cmd ["clear"; "delete"; "exit"; "files"; "get"; "getdir"; "give"; "history"; "home"; "peers"; "put"; "putblind"; "rmtran"; "take"; "tran"] ->
  task_is s i (TStart [cmd; "?"]) -> exists s', task_step E s i = Some s' /\ only_shows s i (help cmd) s'.
Proof.
  intros E s i cmd I T. rewrite (starts _ _ _ _ T). rewrite <- help_eq.
  2:{ eachcmd I; cmd. }
  eachcmd I; (eexists; split; [reflexivity|]); try (eapply finish_shows; eauto; fail).
  - replace (y_with_exit s (y_exit s)) with s by (destruct s; reflexivity). eapply finish_shows; eauto.
  - eapply finish_ends; eauto.
Qed.
Example c94_ex :
  let s := yrun ex_two [YLine "s[4]:cancel it now"; YLine "s[5]:take ?"; YLine "s[6]:peers"] in
  task_is s 3 (TStart ["cancel"; "it"; "now"]) /\ task_is s 4 (TStart ["take"; "?"]) /\ task_is s 5 (TStart ["peers"]) /\
  option_map y_shown (task_step ex_net s 3) = Some (y_shown s ++ [Text WMsg "[cancel it now]"])%list /\
  option_map y_shown (task_step ex_net s 4) = Some (y_shown s ++ help "take")%list /\ help_text "take" <> "" /\ usage_text "take" <> "" /\
  option_map y_shown (task_step ex_net s 5) = Some (y_shown s ++ [Text WMsg "No Peers"])%list.
Proof. cbv zeta. repeat (apply conj; [vm_compute; first [reflexivity|discriminate]|]). vm_compute. reflexivity. Qed.

(** ** Which steps end the program *)

Lemma file_meta_dies : forall fs cwd sardir fname, (forall x, file_meta fs cwd sardir fname <> Ret x) <-> cannot_look fs cwd sardir fname.
Proof.
  intros fs cwd sardir fname. unfold file_meta, cannot_look, full. destruct (os_lstat fs cwd (sardir ++ "/" ++ fname)) as [n|e].
  - destruct (n_kind n) eqn:K; try (split; [intros H; exfalso; eapply H; reflexivity|intros (t & e & X & _); discriminate]).
    destruct (os_lstat fs cwd target) as [o|e] eqn:L.
    + split; [intros H; exfalso; eapply H; reflexivity|]. intros (t & e & X & Y). inversion X; subst. congruence.
    + split; [intros _; eauto|discriminate].
  - destruct e; (split; [intros H; try discriminate; exfalso; eapply H; reflexivity|intros H; try discriminate; congruence]).
Qed.
Lemma beacon_dies : forall E s i x rest, inv s -> almost_valid (y_cli s) -> task_is s i (TBeacon (x :: rest)) ->
  (forall s', beacon_step E s i x rest <> Ret s') -> deadly E s (TBeacon (x :: rest)).
Proof.
  intros E s i x rest I AV T D. red in T. pose proof I as I0. destruct I as [IK _ _ _ IB _]. destruct (IB i) as (F & _); [exists (x :: rest); exact T|].
  assert (V : (exists v, value (y_cli s) (Flag "txwilling") = KText v /\ (v = "on" \/ v = "off")) \/ valid_settings (y_cli s)).
  { destruct (value (y_cli s) (Flag "txwilling")) as [v|n|] eqn:V.
    - destruct (string_dec v "on"); [left; eauto|]. destruct (string_dec v "off"); [left; eauto|]. right. intros f w H.
      destruct (AV f w H) as [X|(-> & X)]; [exact X|]. rewrite V in H. inversion H; subst. tauto.
    - unfold value in V. destruct (lookup _ _); discriminate.
    - right. intros f w H. destruct (AV f w H) as [X|(-> & X)]; [exact X|congruence]. }
  assert (B : forall to, (forall r l, begin_beacons E (y_beacon s) to <> Ret (r, l)) ->
    ce_dial E to <> None /\ exists v, value (y_cli s) (Flag "txwilling") = KText v /\ (v = "on" \/ v = "off")).
  { intros to N. split.
    - intros DI. unfold begin_beacons in N. rewrite DI in N. eapply N; eauto.
    - destruct V as [V|V]; [exact V|]. exfalso. destruct (begin_returns E (y_beacon s) to (y_cli s) IK V F) as (r & l & X). eapply N; eauto. }
  destruct x as [off text|text|to b more]; cbn [beacon_step] in D.
  - destruct (udp_address (ce_resolve E) text) as ([to|] & [e|]) eqn:U; try (exfalso; eapply D; reflexivity).
    destruct off; [exfalso; eapply D; reflexivity|].
    assert (NB : forall r l, begin_beacons E (y_beacon s) to <> Ret (r, l)) by (intros r l X; rewrite X in D; eapply D; reflexivity).
    destruct (B to NB) as (DI & v & V1 & V2).
    apply (dl_beacon E s _ to v); [exists text, rest; repeat split; auto|exact V1|exact V2].
  - destruct (udp_address (ce_resolve E) text) as ([to|] & [e|]) eqn:U; try (exfalso; eapply D; reflexivity).
    assert (NB : forall r l, begin_beacons E (y_beacon s) to <> Ret (r, l)) by (intros r l X; rewrite X in D; eapply D; reflexivity).
    destruct (B to NB) as (DI & v & V1 & V2).
    apply (dl_beacon E s _ to v); [exists text, rest; repeat split; auto|exact V1|exact V2].
  - exfalso. destruct (more =? 0); [eapply D; reflexivity|]. pose proof (c39_encode b) as CE. destruct (space_width (b_header b)).
    + rewrite CE in D. cbn [obind] in D. destruct (ce_write E); [|eapply D; reflexivity]. unfold beacon_shortprint_ok in D. rewrite getstr_freespace in D. eapply D; reflexivity.
    + destruct CE as (e & CE). rewrite CE in D. eapply D; reflexivity.
Qed.
Lemma copy_returns : forall s, inv s -> exists cf, copy_cliflags (y_cli s) = (cf, None).
Proof.
  intros s [IK _ _ _ _ _]. unfold copy_cliflags. destruct (cl_global (y_cli s)); [discriminate IK|]. eauto.
Qed.
Lemma add_dies : forall E s a b c d, inv s ->
  ((forall x, initiator_add (ienv_of E) (cl_sardir (y_cli s)) (y_cli s) (y_tran s) a b c <> Ret x) <-> deadly E s (TAdd a b c d)).
Proof.
  intros E s a b c d I. destruct (copy_returns s I) as (cf & CF). unfold initiator_add. cbv zeta. rewrite CF.
  split.
  - intros H. constructor. cbv zeta. apply file_meta_dies. intros x X. cbn [ienv_of ie_now ie_chdir] in H. rewrite X in H. eapply H; reflexivity.
  - intros D. inversion D as [| | |? ? ? ? L]; subst. cbv zeta in L. rewrite <- file_meta_dies in L. intros x X.
    destruct (file_meta _ _ _ _) eqn:M in X; try discriminate. eapply L. cbn [ienv_of ie_now ie_chdir] in M. exact M.
Qed.
(** C95: a step of a goroutine ends the program exactly when it is one of the four deadly ones *)
Lemma c95_dies : forall s E i t s', reachable s -> y_dead s = false -> task_is s i t -> task_step E s i = Some s' ->
  (y_dead s' = true <-> deadly E s t).
Proof.
  intros s E i t s' R AL T H. pose proof (reachable_inv s R) as I. pose proof (reachable_almost s R) as AV.
  assert (DF : forall s1, y_dead s1 = y_dead s -> (y_dead s1 = true <-> False)) by (intros s1 X; rewrite X, AL; split; [discriminate|tauto]).
  destruct t as [args|todo|a b c d|ch t|e|].
  - rewrite (starts _ _ _ _ T) in H.
    assert (P : forall rest, args = "peers" :: rest -> y_dead s' = true <-> deadly E s (TStart args)).
    { intros rest ->. change (Some (or_die s (do l <- cmd_peers (y_peers s) ("peers" :: rest); Ret (finish s i l))) = Some s') in H. inj H.
      destruct rest as [|x rest].
      - cbn [cmd_peers]. pose proof (peers_loop (y_peers s)) as PL. destruct (y_peers s) as [|p l] eqn:Y.
        + cbn [obind or_die]. rewrite DF by reflexivity. split; [tauto|]. intros D. inversion D as [p P1 P2| | |]; subst. rewrite Y in P1. destruct P1.
        + rewrite <- Y in *. destruct (ofold _ _ _); cbn [obind or_die].
          * rewrite DF by reflexivity. split; [tauto|]. intros D. inversion D as [q P1 P2| | |]; subst. rewrite Forall_forall in PL. auto.
          * split; [|reflexivity]. intros _. destruct PL as (q & Iq & Q). econstructor; eauto.
          * split; [|reflexivity]. intros _. destruct PL as (q & Iq & Q). econstructor; eauto.
      - assert (X : exists l, cmd_peers (y_peers s) ("peers" :: x :: rest) = Ret l) by (destruct rest; cbn [cmd_peers]; eauto). destruct X as (l & ->).
        cbn [obind or_die]. rewrite DF by reflexivity. split; [tauto|]. intros D. inversion D. }
    assert (RM : forall rest, args = "rmtran" :: rest -> y_dead s' = true <-> deadly E s (TStart args)).
    { intros rest ->. rewrite <- (starts _ _ _ _ T) in H.
      assert (Q : (exists kind addr n session, rest = [kind; addr; n] /\ session_text n session) \/ forall kind addr n session, rest = [kind; addr; n] -> ~ session_text n session).
      { destruct rest as [|a [|b [|c [|]]]]; try (right; discriminate). destruct (parse_uint 32 c) as [n|] eqn:PU.
        - left. apply parse_uint_spec in PU. exists a, b, c, n. auto.
        - right. intros k a' n ses X Y. inversion X; subst. apply parse_uint_spec in Y. congruence. }
      destruct Q as [(kind & addr & n & session & -> & ST)|Q].
      - destruct (c92_cases addr session (table_of s)) as [F|(t & LC & [NM|NC])].
        + destruct (c92_absent E s i kind addr n session T ST F) as (s1 & H1 & W). rewrite H in H1. inj H1. rewrite DF by apply (ew_dead _ _ _ _ _ W).
          split; [tauto|]. intros D. inversion D as [|k0 a0 n0 ses0 t0 R1 R2 R3| |]; subst. assert (ses0 = session) by (apply parse_uint_spec in R1; apply parse_uint_spec in ST; congruence). subst.
          destruct R2 as (b & a & TB & _). rewrite TB in F. apply Forall_app in F. destruct F as (_ & F). inversion F; subst. tauto.
        + destruct (c92_removes E s i kind addr n session t T ST LC NM) as (s1 & H1 & W). rewrite H in H1. inj H1. rewrite DF by apply (ew_dead _ _ _ _ _ W).
          split; [tauto|]. intros D. inversion D as [|k0 a0 n0 ses0 t0 R1 R2 R3| |]; subst. assert (ses0 = session) by (apply parse_uint_spec in R1; apply parse_uint_spec in ST; congruence). subst.
          pose proof (c92_dies E s i kind addr n session t0 T R1 R2 R3) as K. rewrite H in K. inj K. pose proof (ew_dead _ _ _ _ _ W) as X. cbn in X. congruence.
        + pose proof (c92_dies E s i kind addr n session t T ST LC NC) as K. rewrite H in K. inj K. split; [|reflexivity]. intros _. econstructor; eauto.
      - destruct (c92_other E s i rest T Q) as (s1 & l & H1 & W & _). rewrite H in H1. inj H1. rewrite DF by apply (ew_dead _ _ _ _ _ W).
        split; [tauto|]. intros D. inversion D; subst. eapply Q; eauto. }
    destruct args as [|name rest]; [discriminate|].
    destruct (string_dec name "peers") as [->|N1]; [eauto|]. destruct (string_dec name "rmtran") as [->|N2]; [eauto|]. clear P RM.
    assert (ND : ~ deadly E s (TStart (name :: rest))) by (intros D; inversion D; subst; congruence).
    assert (G : y_dead s' = y_dead s); [|rewrite DF by exact G; tauto].
    unfold start_step in H. destruct (lookup name setting_commands) as [f|].
    { destruct (existsb _ _); [discriminate|]. destruct (f (y_cli s) _) as (c & l). inj H. reflexivity. }
    destruct (lookup name transfer_commands) as [tc|].
    { inj H. unfold start_transfer. destruct rest as [|a [|g [|]]]; try reflexivity.
      destruct (udp_address (ce_resolve E) a) as ([peer|] & [e|]); try reflexivity. destruct (initiator_check _ _ _ _ _ _ _); reflexivity. }
    destruct (String.eqb name "beacon").
    { destruct (existsb _ _); [discriminate|]. destruct (cmd_beacon _ _ _) as ((b & l) & todo). inj H. reflexivity. }
    rewrite (proj2 (String.eqb_neq name "peers") N1), (proj2 (String.eqb_neq name "rmtran") N2) in H.
    repeat match type of H with
    | (if ?b then _ else _) = _ => destruct b; [first [inj H; reflexivity | destruct (cmd_exit _ _) as (z & l); inj H; reflexivity]|]
    end. discriminate.
  - red in T. unfold task_step in H. rewrite T in H. destruct todo as [|x rest]; inj H.
    + rewrite DF by reflexivity. split; [tauto|]. intros D. inversion D as [| |td to v B1 B2 B3|]; subst. destruct B1 as (text & r & [X|X] & _); discriminate.
    + destruct (beacon_step E s i x rest) as [s1| |] eqn:BS; cbn [or_die].
      * destruct (beacon_step_kept _ _ _ _ _ _ BS) as (_ & _ & X & _). rewrite DF by exact X. split; [tauto|]. intros D. inversion D as [| |td to v B1 B2 B3|]; subst.
        pose proof (c66_dies s E i _ to v R B2 B3 T B1) as K. unfold task_step in K. rewrite T, BS in K. cbn [or_die] in K. inj K. cbn [y_dead y_kill] in X. congruence.
      * split; [|reflexivity]. intros _. eapply beacon_dies; eauto. rewrite BS. discriminate.
      * split; [|reflexivity]. intros _. eapply beacon_dies; eauto. rewrite BS. discriminate.
  - red in T. unfold task_step in H. rewrite T in H. inj H. rewrite <- add_dies by exact I.
    destruct (initiator_add _ _ _ _ _ _ _) as [(st & t)| |]; cbn [obind or_die].
    + rewrite DF by (destruct d; reflexivity). split; [tauto|]. intros X. eapply X; reflexivity.
    + split; [discriminate|reflexivity].
    + split; [discriminate|reflexivity].
  - red in T. unfold task_step in H. rewrite T in H. destruct (nth_error (y_chans s) ch) as [[|e l]|]; try discriminate. inj H.
    rewrite DF by reflexivity. split; [tauto|]. intros D. inversion D.
  - red in T. unfold task_step in H. rewrite T in H. destruct e; [|discriminate]. inj H. rewrite DF by reflexivity. split; [tauto|]. intros D. inversion D.
  - red in T. unfold task_step in H. rewrite T in H. discriminate.
Qed.
Example c95_ex :
  let s := yrun ex_ystart [YLine "s[1]:get 10.0.0.2 one"; YStep ex_nodial 0; YStep ex_nodial 0; YLine "s[2]:rmtran get 10.0.0.2:7542 78"; YLine "s[3]:peers"] in
  reachable s /\ y_dead s = false /\ task_is s 1 (TStart ["rmtran"; "get"; "10.0.0.2:7542"; "78"]) /\
  deadly ex_nodial s (TStart ["rmtran"; "get"; "10.0.0.2:7542"; "78"]) /\ ~ deadly ex_nodial s (TStart ["peers"]) /\
  option_map y_dead (task_step ex_nodial s 1) = Some true /\ option_map y_dead (task_step ex_nodial s 2) = Some false.
Proof.
  intros s. assert (R : reachable s) by (apply reachable_run; exists exi_fs, [], [], []; reflexivity).
  assert (AL : y_dead s = false) by (vm_compute; reflexivity).
  assert (T1 : task_is s 1 (TStart ["rmtran"; "get"; "10.0.0.2:7542"; "78"])) by (vm_compute; reflexivity).
  assert (T2 : task_is s 2 (TStart ["peers"])) by (vm_compute; reflexivity).
  assert (D1 : option_map y_dead (task_step ex_nodial s 1) = Some true) by (vm_compute; reflexivity).
  assert (D2 : option_map y_dead (task_step ex_nodial s 2) = Some false) by (vm_compute; reflexivity).
  clearbody s. repeat split; auto.
  - destruct (task_step ex_nodial s 1) as [s1|] eqn:S1; [|discriminate]. apply (c95_dies s ex_nodial 1 _ s1 R AL T1 S1). cbn in D1. congruence.
  - intros D. destruct (task_step ex_nodial s 2) as [s1|] eqn:S1; [|discriminate]. apply (c95_dies s ex_nodial 2 _ s1 R AL T2 S1) in D. cbn in D2. congruence.
Qed.

(** ** Help *)

Lemma leb_total : forall a b, String.leb a b = true \/ String.leb b a = true.
Proof.
  intros a b. unfold String.leb. rewrite (String.compare_antisym a b). destruct (String.compare b a); auto.
Qed.
Lemma compare_lt_trans : forall a b c, String.compare a b = Lt -> String.compare b c = Lt -> String.compare a c = Lt.
Proof.
  assert (AC : forall x y, Ascii.compare x y = N.compare (N_of_ascii x) (N_of_ascii y)) by reflexivity.
  induction a as [|x a IH]; intros [|y b] [|z c]; cbn; try discriminate; auto.
  rewrite !AC. destruct (N.compare_spec (N_of_ascii x) (N_of_ascii y)), (N.compare_spec (N_of_ascii y) (N_of_ascii z)); try discriminate; intros A B.
  - rewrite H, H0, N.compare_refl. eauto.
  - rewrite H. now rewrite (proj2 (N.compare_lt_iff _ _) H0).
  - rewrite <- H0. now rewrite (proj2 (N.compare_lt_iff _ _) H).
  - now rewrite (proj2 (N.compare_lt_iff _ _) (N.lt_trans _ _ _ H H0)).
Qed.
Lemma leb_spec : forall a b, String.leb a b = true <-> a = b \/ String.compare a b = Lt.
Proof.
  intros a b. unfold String.leb. destruct (String.compare a b) eqn:C; split; auto; try discriminate.
  - intros _. left. now apply String.compare_eq_iff.
  - intros [->|X]; [|discriminate]. pose proof (String.compare_antisym b b) as X. rewrite C in X. discriminate.
Qed.
Lemma leb_trans : forall a b c, String.leb a b = true -> String.leb b c = true -> String.leb a c = true.
Proof.
  intros a b c. rewrite !leb_spec. intros [->|A] [->|B]; auto. right. eapply compare_lt_trans; eauto.
Qed.
Lemma insert_perm : forall s l, Permutation (insert_string s l) (s :: l).
Proof.
  intros s l. induction l as [|x l IH]; cbn; [reflexivity|]. destruct (String.leb s x); [reflexivity|]. rewrite IH. apply perm_swap.
Qed.
Lemma sort_perm : forall l, Permutation (sort_strings l) l.
Proof. induction l as [|x l IH]; [reflexivity|]. cbn. rewrite insert_perm. now constructor. Qed.
Lemma insert_sorted : forall s l, StronglySorted (fun a b => String.leb a b = true) l -> StronglySorted (fun a b => String.leb a b = true) (insert_string s l).
Proof.
  intros s l H. induction H as [|x l S IH F]; cbn [insert_string]; [repeat constructor|].
  destruct (String.leb s x) eqn:L.
  - constructor; [constructor; auto|]. constructor; auto. eapply Forall_impl; [|exact F]. intros a A. eapply leb_trans; eauto.
  - constructor; auto. apply Forall_forall. intros y I. apply (Permutation_in _ (insert_perm s l)) in I. destruct I as [<-|I].
    + destruct (leb_total s x); congruence.
    + rewrite Forall_forall in F. auto.
Qed.
Lemma sort_sorted : forall l, StronglySorted (fun a b => String.leb a b = true) (sort_strings l).
Proof. induction l as [|x l IH]; [constructor|]. apply insert_sorted, IH. Qed.
Lemma sort_manual : forall f line, sort_strings (map f sar_commands) = sort_strings (map line command_names) -> manual line (sort_strings (map f sar_commands)).
Proof. intros f line H. split; [rewrite H; apply sort_perm|apply sort_sorted]. Qed.

(** C96: "help" and "?" show one line for each command, in order *)
Lemma c96_help : forall E s i cmd, cmd = "help" \/ cmd = "?" -> task_is s i (TStart [cmd]) ->
  exists s' l, task_step E s i = Some s' /\ only_shows s i [Text WMsg (lines l)] s' /\ manual (fun c => c ++ " - " ++ help_text c) l.
Proof.
  intros E s i cmd C T. rewrite (starts _ _ _ _ T).
  eexists. eexists. split; [destruct C as [-> | ->]; reflexivity|]. split; [eapply finish_shows; eauto|].
  apply sort_manual. vm_compute. reflexivity.
Qed.
(** C96: with "?" the usage as well *)
Lemma c96_full : forall E s i cmd, cmd = "help" \/ cmd = "?" -> task_is s i (TStart [cmd; "?"]) ->
  exists s' l, task_step E s i = Some s' /\ only_shows s i [Text WMsg (lines l)] s' /\
    manual (fun c => c ++ " - " ++ help_text c ++ newline ++ "  " ++ usage_text c) l.
Proof.
  intros E s i cmd C T. rewrite (starts _ _ _ _ T).
  eexists. eexists. split; [destruct C as [-> | ->]; reflexivity|]. split; [eapply finish_shows; eauto|].
  apply sort_manual. vm_compute. reflexivity.
Qed.
(** C96: with any other words, only the line of "help" itself: not that of the command
    that is named (defect) *)
Lemma c96_own : forall E s i cmd a rest, cmd = "help" \/ cmd = "?" -> task_is s i (TStart (cmd :: a :: rest)) -> a :: rest <> ["?"] ->
  exists s', task_step E s i = Some s' /\ only_shows s i [Text WMsg ("help - " ++ help_text "help")] s'.
Proof.
  intros E s i cmd a rest C T N. rewrite (starts _ _ _ _ T). 
  assert (H : forall c, cmd_help (c :: a :: rest) = [Text WMsg ("help - " ++ help_text "help")]).
  { intros c. cbn [cmd_help]. destruct rest; [|reflexivity]. destruct (String.eqb_spec a "?"); [congruence|reflexivity]. }
  exists (finish s i (cmd_help (cmd :: a :: rest))). split; [destruct C as [-> | ->]; reflexivity|]. rewrite H. eapply finish_shows; eauto.
Qed.
(** C96: "usage" shows the usage of each command, whatever its words *)
Lemma c96_usage : forall E s i rest, task_is s i (TStart ("usage" :: rest)) ->
  exists s' l, task_step E s i = Some s' /\ only_shows s i [Text WMsg (lines l)] s' /\ manual (fun c => c ++ " - " ++ usage_text c) l.
Proof.
  intros E s i rest T. rewrite (starts _ _ _ _ T). eexists. eexists. split; [reflexivity|]. split; [eapply finish_shows; eauto|].
  apply sort_manual. vm_compute. reflexivity.
Qed.
Example c96_ex :
  let s := yrun ex_ystart [YLine "s[1]:?"; YLine "s[2]:help get"; YLine "s[3]:usage"] in
  task_is s 0 (TStart ["?"]) /\ task_is s 1 (TStart ["help"; "get"]) /\ task_is s 2 (TStart ["usage"]) /\
  (forall c, In c command_names -> help_text c <> "" /\ usage_text c <> "").
Proof.
  repeat split; try (vm_compute; reflexivity).
  all: unfold command_names in H; repeat (destruct H as [<-|H]; [vm_compute; discriminate|]); destruct H.
Qed.

(** ** Clearing windows *)

Lemma window_of_eq : forall w, window_of w = lookup w windows.
Proof. intros w. unfold window_of, windows. cbn [lookup]. reflexivity. Qed.
(** C97: "clear" alone clears the three windows *)
Lemma c97_all : forall E s i, task_is s i (TStart ["clear"]) ->
  exists s', task_step E s i = Some s' /\ only_shows s i (Text WMsg "Cleared all windows" :: map (fun x => Cleared (snd x)) windows) s'.
Proof. intros E s i T. rewrite (starts _ _ _ _ T). eexists. split; [reflexivity|eapply finish_shows; eauto]. Qed.
(** C97: with words it clears the windows named, in order, up to the first word that is
    not the name of one *)
Lemma c97_words : forall E s i good bad, task_is s i (TStart ("clear" :: good ++ bad)) -> (good ++ bad)%list <> [] -> (good ++ bad)%list <> ["?"] ->
  Forall (fun w => In w (map fst windows)) good -> match bad with [] => True | w :: _ => ~ In w (map fst windows) end ->
  exists s', task_step E s i = Some s' /\
    only_shows s i (flat_map clears good ++ match bad with [] => [] | _ => [usage_error "clear"] end)%list s'.
Proof.
  intros E s i good bad T N1 N2 G B. rewrite (starts _ _ _ _ T).
  change (start_step E s i ("clear" :: good ++ bad)) with (Some (finish s i (cmd_clear ("clear" :: good ++ bad)))).
  assert (LP : clear_loop (good ++ bad) = (flat_map clears good ++ match bad with [] => [] | _ => [usage_error "clear"] end)%list).
  { clear T N1 N2. rewrite <- usage_eq by cmd. induction G as [|w good I G IH]; cbn [app flat_map].
    - destruct bad as [|w bad]; [reflexivity|]. cbn [clear_loop]. rewrite window_of_eq. destruct (lookup w windows) as [x|] eqn:L; [|reflexivity].
      exfalso. apply B. apply lookup_In in L. apply (in_map fst) in L. exact L.
    - cbn [clear_loop]. rewrite window_of_eq. unfold clears at 1. destruct (lookup w windows) as [x|] eqn:L.
      + cbn [app]. now rewrite IH.
      + exfalso. apply In_keys_lookup in I. destruct I as (v & I). congruence. }
  assert (C : cmd_clear ("clear" :: good ++ bad) = clear_loop (good ++ bad)).
  { destruct (good ++ bad)%list as [|a [|b r]]; [congruence| |reflexivity]. cbn [cmd_clear clear_loop]. destruct (String.eqb_spec a "?"); [congruence|]. reflexivity. }
  rewrite C, LP. eexists. split; [reflexivity|eapply finish_shows; eauto].
Qed.
Example c97_ex :
  let s := yrun ex_ystart [YLine "s[1]:clear packet err that msg"] in
  task_is s 0 (TStart ("clear" :: ["packet"; "err"] ++ ["that"; "msg"])) /\
  option_map y_shown (task_step ex_net s 0) =
    Some [Text WMsg "Cleared Window:packet"; Cleared WPacket; Text WMsg "Cleared Window:err"; Cleared WErr; usage_error "clear"].
Proof. split; vm_compute; reflexivity. Qed.
