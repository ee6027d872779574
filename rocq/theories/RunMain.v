(** * Runs of the command line *)

From Verif Require Import GoBase GoFacts Flags SpecFlags FlagsFacts FlagStrFacts SarFacts FlagsMain Config ConfigFacts Shipped SpecWire Data SpecFrames BuildFacts Beacon SpecBeacon BeaconMain Timestamp Trans Sarnet Transfer Words SpecWords WordsFacts SpecTransfer TransferMain Cli SpecCli CliFacts CliFacts2 CliMain RunFacts SpecRun.
Local Open Scope string_scope.
Local Open Scope N_scope.

Lemma reachable_inv : forall s, reachable s -> inv s.
Proof. intros s (fs & cwd & peers & ls & ->). apply run_inv, start_inv. Qed.
Lemma yrun_app : forall ls ls' s, yrun s (ls ++ ls') = yrun (yrun s ls) ls'.
Proof. induction ls as [|l ls IH]; intros; [reflexivity|]. cbn [app yrun]. apply IH. Qed.
Lemma reachable_run : forall s ls, reachable s -> reachable (yrun s ls).
Proof. intros s ls (fs & cwd & peers & l & ->). exists fs, cwd, peers, (l ++ ls)%list. now rewrite yrun_app. Qed.
Lemma reachable_by_reachable : forall ok s, reachable_by ok s -> reachable s.
Proof. intros ok s (fs & cwd & peers & ls & -> & _). exists fs, cwd, peers, ls. reflexivity. Qed.

(** ** The flags stay valid *)

Definition almost_valid (c : cliflags) : Prop :=
  forall f v, value c (Flag f) = KText v -> valid_setting sar (f, v) \/ (f = "txwilling" /\ (v = "on" \/ v = "off")).
Lemma order_valid : forall c ws f v, orders c ws (Flag f) (KText v) ->
  valid_setting sar (f, v) \/ (f = "txwilling" /\ (v = "on" \/ v = "off") /\ spoils ws).
Proof.
  intros c ws f v H. inversion H; subst.
  assert (K : forall k w, known_option sar k w = true -> valid_setting sar (k, w)).
  { intros k w. unfold known_option, valid_setting, option_value. cbn [fst snd]. destruct (lookup k (t_flags sar)) as [fl|]; [|discriminate].
    destruct (lookup w (f_opts fl)) as [n|] eqn:L; [|discriminate]. intros _. exists n, fl. auto. }
  unfold choices in H1.
  repeat (destruct H1 as [X|H1];
    [inversion X; subst; repeat (destruct H4 as [Y|H4]; [inversion Y; subst; first [left; apply K; vm_compute; reflexivity|right; unfold spoils; auto]|]); destruct H4|]).
  destruct H1.
Qed.
Lemma value_text : forall c f v, value c (Flag f) = KText v <-> lookup f (cl_global c) = Some v.
Proof. intros c f v. unfold value. destruct (lookup f (cl_global c)); split; congruence. Qed.
Lemma start_valid : almost_valid sar_cli /\ valid_settings sar_cli.
Proof.
  assert (V : valid_settings sar_cli).
  { intros f v H. apply value_text in H. apply lookup_In in H.
    assert (A : forallb (fun p => known_option sar (fst p) (snd p)) (cl_global sar_cli) = true) by (vm_compute; reflexivity).
    rewrite forallb_forall in A. specialize (A _ H). cbn [fst snd] in A. unfold known_option in A. unfold valid_setting, option_value. cbn [fst snd].
    destruct (lookup f (t_flags sar)) as [fl|]; [|discriminate]. destruct (lookup v (f_opts fl)) as [n|] eqn:L; [|discriminate]. exists n, fl. auto. }
  split; [|exact V]. intros f v H. left. apply V; auto.
Qed.
Lemma setting_valid : forall name f c rest, lookup name setting_commands = Some f ->
  (almost_valid c -> almost_valid (fst (f c (name :: rest)))) /\
  (~ spoils (name :: rest) -> valid_settings c -> valid_settings (fst (f c (name :: rest)))).
Proof.
  intros name f c rest L. pose proof (setting_changes name f c rest L) as C. pose proof (ordered_complete c (name :: rest)) as O. split.
  - intros V k v H. rewrite (C (Flag k)) in H. destruct (kfind (Flag k) (ordered c (name :: rest))) as [w|] eqn:F; [|apply V; auto].
    subst w. apply O in F. apply order_valid in F. tauto.
  - intros NS V k v H. rewrite (C (Flag k)) in H. destruct (kfind (Flag k) (ordered c (name :: rest))) as [w|] eqn:F; [|apply V; auto].
    subst w. apply O in F. apply order_valid in F. tauto.
Qed.
(** The settings change only by a settings command *)
Lemma moved_cli : forall E s i s', inv s -> moved E s i s' ->
  y_cli s' = y_cli s \/
  exists name f rest, task_is s i (TStart (name :: rest)) /\ lookup name setting_commands = Some f /\ existsb holds_climu (y_tasks s) = false /\
    y_cli s' = fst (f (y_cli s) (name :: rest)) /\ y_beacon s' = y_beacon s /\ y_tasks s' = set_nth (y_tasks s) i TEnd.
Proof.
  intros E s i s' I M. destruct M; auto.
  - right. exists name, f, rest. repeat split; auto.
  - left. apply H5.
  - left. apply H1.
  - left. apply (beacon_step_kept _ _ _ _ _ _ H0).
Qed.
(** Goroutines begin with the words of a line *)
Lemma moved_starts : forall E s i s' args, moved E s i s' -> In (TStart args) (y_tasks s') -> In (TStart args) (y_tasks s).
Proof.
  intros E s i s' args M.
  assert (G : forall t, (forall a, t <> TStart a) -> In (TStart args) (set_nth (y_tasks s) i t) -> In (TStart args) (y_tasks s)).
  { intros t N I. apply In_nth_error in I. destruct I as (j & I). apply set_nth_cases in I. destruct I as [(_ & I)|(_ & I)]; [congruence|].
    eapply nth_error_In; eauto. }
  destruct M; try (exact (fun h => h)).
  - cbn. apply G. discriminate.
  - cbn. apply G. discriminate.
  - rewrite H6. apply G. intros a. destruct H4 as [->|[->|(? & ? & ? & ? & ->)]]; discriminate.
  - rewrite H6. intros I. apply in_app_or in I. destruct I as [I|[I|[]]]; [|discriminate]. revert I. apply G. discriminate.
  - rewrite H2. apply G. discriminate.
  - destruct (beacon_step_kept _ _ _ _ _ _ H0) as (_ & _ & _ & _ & _ & _ & _ & _ & _ & todo & T). rewrite T. apply G. discriminate.
  - cbn. apply G. discriminate.
Qed.
Lemma get_line_words : forall line args l, get_line line = Ret (Some args, l) -> asks line args.
Proof.
  intros line args l H. destruct (c67_enter line) as (A & B). pose proof (split_two_spec line) as S.
  destruct (split_two ":" line) as [|h [|t [|]]]; try (destruct S; fail); [rewrite (B S) in H; discriminate|].
  rewrite (A t S) in H. destruct (one_of t _); [discriminate|]. exists t. split; [exact S|].
  unfold run_line in H. destruct (String.eqb t ""); [discriminate|]. rewrite fields_trim in H. destruct (fields t) as [|v r] eqn:F; [discriminate|].
  destruct (has_key v sar_commands); [destruct (one_of v handler_names)|]; cbn [obind] in H; inversion H. apply fields_words. congruence.
Qed.
Lemma valid_step : forall (ok : list string -> Prop) s l s', inv s ->
  (forall line ws, l = YLine line -> asks line ws -> ok ws) -> ystep s l = Some s' ->
  (forall args, In (TStart args) (y_tasks s) -> ok args) -> 
  (forall args, In (TStart args) (y_tasks s') -> ok args) /\
  (almost_valid (y_cli s) -> almost_valid (y_cli s')) /\
  ((forall ws, ok ws -> ~ spoils ws) -> valid_settings (y_cli s) -> valid_settings (y_cli s')).
Proof.
  intros ok s l s' I OK H A. unfold ystep in H. destruct (y_dead s); [discriminate|]. destruct l as [line|E i|fs ps]; [| |inj H; cbn; auto].
  - inversion H. destruct (get_line line) as [(g & l)| |] eqn:G; cbn [obind or_die]; [|repeat split; auto..].
    destruct g as [args|]; [|repeat split; auto]. repeat split; auto. cbn. intros ws W. apply in_app_or in W. destruct W as [W|[W|[]]]; [auto|].
    inversion W; subst ws. apply (OK line); auto. eapply get_line_words; eauto.
  - apply step_moved in H. repeat split.
    + intros args J. apply A. eapply moved_starts; eauto.
    + intros V. destruct (moved_cli E s i s' I H) as [->|(name & f & rest & T & L & _ & -> & _)]; [auto|]. apply setting_valid; auto.
    + intros NS V. destruct (moved_cli E s i s' I H) as [->|(name & f & rest & T & L & _ & -> & _)]; [auto|]. apply setting_valid; auto.
      apply NS, A. eapply nth_error_In; eauto.
Qed.
Lemma valid_run : forall (ok : list string -> Prop) ls s, inv s -> (forall line ws, In (YLine line) ls -> asks line ws -> ok ws) ->
  (forall args, In (TStart args) (y_tasks s) -> ok args) ->
  (forall args, In (TStart args) (y_tasks (yrun s ls)) -> ok args) /\
  (almost_valid (y_cli s) -> almost_valid (y_cli (yrun s ls))) /\
  ((forall ws, ok ws -> ~ spoils ws) -> valid_settings (y_cli s) -> valid_settings (y_cli (yrun s ls))).
Proof.
  intros ok. induction ls as [|l ls IH]; intros s I OK A; [repeat split; auto|]. cbn [yrun]. destruct (ystep s l) as [s1|] eqn:Y.
  - destruct (valid_step ok s l s1 I) as (A1 & B1 & C1); auto.
    { intros line ws -> W. apply (OK line); auto. left; auto. }
    assert (I1 : inv s1) by (eapply step_inv; eauto). assert (OK1 : forall line ws, In (YLine line) ls -> asks line ws -> ok ws) by (intros line ws J; apply (OK line); right; auto).
    destruct (IH s1 I1 OK1 A1) as (A2 & B2 & C2). repeat split; auto.
  - apply IH; auto. intros; apply (OK line); auto. right; auto.
Qed.
Lemma reachable_almost : forall s, reachable s -> almost_valid (y_cli s).
Proof.
  intros s (fs & cwd & peers & ls & ->). apply (valid_run (fun _ => True) ls); auto; [apply start_inv|apply start_valid].
Qed.

(** C66: unless txwilling is switched on or off, every flag keeps a valid value *)
Lemma c66_valid : forall s, reachable_by (fun ws => ~ spoils ws) s -> valid_settings (y_cli s).
Proof.
  intros s (fs & cwd & peers & ls & -> & OK). 
  destruct (valid_run (fun ws => ~ spoils ws) ls (ystart fs cwd peers) (start_inv fs cwd peers) OK) as (_ & _ & C); [intros args []|].
  apply C; auto. apply start_valid.
Qed.

Lemma keys_nodup : NoDup (keys (cl_global sar_cli)).
Proof. eapply nodupb_NoDup; [apply String.eqb_eq|]. vm_compute. reflexivity. Qed.
Lemma almost_clean : forall c, keys (cl_global c) = keys (cl_global sar_cli) -> almost_valid c ->
  forall p, In p (cl_global c) -> clean (fst p) /\ clean (snd p).
Proof.
  intros c K V (f & v) I. assert (L : lookup f (cl_global c) = Some v) by (apply In_lookup; auto; rewrite K; apply keys_nodup).
  apply value_text in L. destruct (V f v L) as [X|(-> & X)]; [exact (proj1 sar_clean (f, v) X)|].
  destruct (proj1 sar_clean ("txwilling", "yes")) as (A & _); [exists 3, (flag_of sar "txwilling"); split; reflexivity|].
  split; [exact A|]. destruct X as [->| ->]; unfold clean; cbn; intuition discriminate.
Qed.
(** The items of the flag list of a beacon *)
Lemma beacon_items : forall c, keys (cl_global c) = keys (cl_global sar_cli) -> almost_valid c ->
  exists items, sf_setglobal sar "beacon" c = flag_list items /\
    map fst items = ["descriptor"; "stream"; "txwilling"; "rxwilling"; "udplite"; "freespace"] /\
    (forall f v, In (f, v) items -> value c (Flag f) = KText v) /\
    (forall p, In p items -> clean (fst p) /\ clean (snd p)).
Proof.
  intros c K V. destruct (c09_setglobal sar "beacon" c) as (items & E & A & M).
  - rewrite K. apply keys_nodup.
  - apply sar_fields_nodup. vm_compute; auto.
  - apply almost_clean; auto.
  - exists items. split; [exact E|]. split; [|split].
    + rewrite M. assert (H : forall f, has_key f (cl_global c) = has_key f (cl_global sar_cli)).
      { intros f. destruct (has_key f (cl_global sar_cli)) eqn:X.
        - apply has_key_lookup. apply In_keys_lookup. rewrite K. apply has_key_lookup in X. destruct X as (v & X). apply lookup_In in X.
          apply in_map_iff. exists (f, v); auto.
        - destruct (has_key f (cl_global c)) eqn:Y; [|reflexivity]. rewrite <- X. symmetry. apply has_key_lookup. apply In_keys_lookup. rewrite <- K.
          apply has_key_lookup in Y. destruct Y as (v & Y). apply lookup_In in Y. apply in_map_iff. exists (f, v); auto. }
      rewrite (filter_ext _ _ H). reflexivity.
    + intros f v I. apply A in I. destruct I as (_ & L). apply value_text; auto.
    + intros (f & v) I. apply (almost_clean c K V). apply A in I. apply lookup_In. apply I.
Qed.
Lemma item_accept : forall f v, In f ["descriptor"; "stream"; "txwilling"; "rxwilling"; "udplite"; "freespace"] ->
  valid_setting sar (f, v) -> beacon_item_verdict sar (f, v) = Accept.
Proof.
  intros f v I (n & fl & L & O). cbn [fst snd] in *. unfold beacon_item_verdict.
  replace (is_in f _) with true by (symmetry; unfold is_in; destruct (in_dec _ _ _); auto).
  unfold setting_verdict, known_option. rewrite L, O. reflexivity.
Qed.
(** Built or refused, but not fatal *)
Lemma new_returns : forall env c info, keys (cl_global c) = keys (cl_global sar_cli) -> valid_settings c ->
  exists items, beacon_built env 0 (("version", "v1") :: ("frametype", "beacon") :: flat_map beacon_settings items) info
      (beacon_new env zero_beacon (sf_setglobal sar "beacon" c) info) /\
    map fst items = ["descriptor"; "stream"; "txwilling"; "rxwilling"; "udplite"; "freespace"].
Proof.
  intros env c info K V. destruct (beacon_items c K) as (items & E & M & A & C); [intros f v H; left; apply V; auto|].
  exists items. split; [|exact M]. rewrite E. apply (c38_new env zero_beacon items info); auto.
  - intros ->. discriminate M.
  - intros (f & v) I. apply item_accept; [rewrite <- M; apply in_map_iff; exists (f, v); auto|]. apply V. apply A. auto.
  - vm_compute. reflexivity.
Qed.
Lemma built_ret : forall env h l info r, beacon_built env h l info r -> exists b e, r = Ret (b, e).
Proof.
  intros env h l info r H. unfold beacon_built in H. destruct (asks_space h l).
  - destruct (se_getwd env); [destruct H as (b & ->); eauto|]. destruct (free_space env (bi_freespace info)); [|destruct H as (b & -> & _); eauto].
    destruct (space_descriptor n); [destruct H as (b & -> & _); eauto|destruct H as (b & ->); eauto].
  - destruct H as (b & -> & _); eauto.
Qed.
Lemma begin_returns : forall E b to c, keys (cl_global c) = keys (cl_global sar_cli) -> valid_settings c -> bc_flags b = sf_setglobal sar "beacon" c ->
  exists r l, begin_beacons E b to = Ret (r, l).
Proof.
  intros E b to c K V F. unfold begin_beacons. destruct (ce_dial E to) as [local|]; [|eauto]. rewrite F.
  destruct (new_returns (ce_sys E) c {| bi_freespace := 0; bi_eid := local ++ "-" ++ itoa (ce_pid E) |} K V) as (items & B & _).
  apply built_ret in B. destruct B as (b' & e & ->). cbn [obind]. destruct e; eauto.
Qed.
(** C66: as long as txwilling is not switched on or off, no step of a beacon command ends
    the process, and none is ever blocked *)
Lemma c66_alive : forall s E i todo, reachable_by (fun ws => ~ spoils ws) s -> y_dead s = false -> task_is s i (TBeacon todo) ->
  exists s', task_step E s i = Some s' /\ y_dead s' = false.
Proof.
  intros s E i todo R D T. red in T. pose proof (c66_valid s R) as V. pose proof (reachable_inv s (reachable_by_reachable _ s R)) as I.
  destruct I as [IK _ _ _ IB _]. destruct (IB i) as (F & _); [exists todo; exact T|].
  unfold task_step. rewrite T. destruct todo as [|x rest]; [eexists; split; [reflexivity|exact D]|].
  eexists. split; [reflexivity|].
  assert (X : exists s', beacon_step E s i x rest = Ret s').
  { destruct x as [off text|text|to b more]; cbn [beacon_step].
    - destruct (udp_address (ce_resolve E) text) as ([to|] & [e|]); eauto. destruct off; eauto.
      destruct (begin_returns E (y_beacon s) to (y_cli s) IK V F) as (r & l & ->). cbn [obind]. eauto.
    - destruct (udp_address (ce_resolve E) text) as ([to|] & [e|]); eauto.
      destruct (begin_returns E (y_beacon s) to (y_cli s) IK V F) as (r & l & ->). cbn [obind]. eauto.
    - destruct (more =? 0); eauto. pose proof (c39_encode b) as CE. destruct (space_width (b_header b)).
      + rewrite CE. cbn [obind]. destruct (ce_write E); eauto. unfold beacon_shortprint_ok. rewrite getstr_freespace. cbn [obind]. eauto.
      + destruct CE as (e & ->). cbn [obind]. eauto. }
  destruct X as (s' & X). rewrite X. cbn [or_die]. destruct (beacon_step_kept _ _ _ _ _ _ X) as (_ & _ & -> & _). exact D.
Qed.

(** C66: while txwilling is "on" or "off", the process ends when a beacon is about to be
    sent (defect) *)
Lemma c66_dies : forall s E i todo to v, reachable s -> value (y_cli s) (Flag "txwilling") = KText v -> v = "on" \/ v = "off" ->
  task_is s i (TBeacon todo) -> about_to_send E todo to -> task_step E s i = Some (y_kill s).
Proof.
  intros s E i todo to v R VX X T (text & rest & TD & U & D). red in T. pose proof (reachable_almost s R) as V. pose proof (reachable_inv s R) as I.
  destruct I as [IK _ _ _ IB _]. destruct (IB i) as (F & _); [exists todo; exact T|].
  assert (BB : begin_beacons E (y_beacon s) to = Fatal).
  { unfold begin_beacons. destruct (ce_dial E to) as [local|]; [|congruence]. rewrite F.
    destruct (beacon_items (y_cli s) IK V) as (items & EQ & M & A & C). rewrite EQ.
    set (inf := {| bi_freespace := 0; bi_eid := local ++ "-" ++ itoa (ce_pid E) |}).
    destruct items as [|(f1, v1) [|(f2, v2) [|(f3, v3) rest3]]]; try discriminate M. inversion M. subst f1 f2 f3.
    assert (V1 : beacon_item_verdict sar ("descriptor", v1) = Accept).
    { destruct (V "descriptor" v1) as [Y|(Y & _)]; [apply A; cbn; auto|apply item_accept; [cbn; auto|exact Y]|discriminate]. }
    assert (V2 : beacon_item_verdict sar ("stream", v2) = Accept).
    { destruct (V "stream" v2) as [Y|(Y & _)]; [apply A; cbn; auto|apply item_accept; [cbn; auto|exact Y]|discriminate]. }
    assert (V3 : beacon_item_verdict sar ("txwilling", v3) = Kill).
    { assert (Y : v3 = v) by (specialize (A "txwilling" v3); rewrite VX in A; assert (Z : KText v = KText v3) by (apply A; cbn; auto); congruence).
      subst v3. destruct X as [-> | ->]; reflexivity. }
    pose proof (c71_verdict (ce_sys E) zero_beacon (("descriptor", v1) :: ("stream", v2) :: ("txwilling", v3) :: rest3) inf) as W.
    assert (FB : first_bad (map (beacon_item_verdict sar) (("descriptor", v1) :: ("stream", v2) :: ("txwilling", v3) :: rest3)) = Kill).
    { cbn [map]. rewrite V1, V2, V3. reflexivity. }
    rewrite FB in W. specialize (W ltac:(discriminate) C ltac:(discriminate)).
    destruct (beacon_new _ _ _ _) as [(b & [e|])| |]; try discriminate W. reflexivity. }
  unfold task_step. rewrite T. destruct TD as [-> | ->]; cbn [beacon_step]; rewrite U, BB; reflexivity.
Qed.

(** A small world: every address resolves to port 7542 of itself, everything works *)
Definition ex_cenv : cenv :=
  {| ce_resolve := fun s => Some {| ua_ip := s; ua_port := 7542; ua_zone := "" |}; ce_dial := fun _ => Some "10.0.0.1:4000";
     ce_sys := {| se_getwd := None; se_statfs := Some (4096, 1000) |}; ce_write := true;
     ce_now := exi_time; ce_pid := 77; ce_chdir := true |}.
Definition ex_ystart : ystate := ystart exi_fs [] [].
Example c66_ex :
  let good := yrun ex_ystart [YLine "s[1]:txwilling capable"; YStep ex_cenv 0; YLine "s[2]:beacon 10.0.0.2"; YStep ex_cenv 1; YStep ex_cenv 1] in
  let bad := yrun ex_ystart [YLine "s[1]:txwilling on"; YStep ex_cenv 0; YLine "s[2]:beacon 10.0.0.2"; YStep ex_cenv 1] in
  value (y_cli good) (Flag "txwilling") = KText "capable" /\ y_dead good = false /\
  value (y_cli bad) (Flag "txwilling") = KText "on" /\ y_dead bad = false /\ task_is bad 1 (TBeacon [BHost false "10.0.0.2"]) /\
  y_dead (yrun bad [YStep ex_cenv 1]) = true.
Proof. repeat split; vm_compute; reflexivity. Qed.

(** ** Waiting for the end of a transfer *)

Lemma stuck_step : forall s l s' i t, inv s -> ystep s l = Some s' -> task_is s i t ->
  ((exists ch x, t = TWait ch x) \/ t = TDo None \/ t = TEnd) -> task_is s' i t.
Proof.
  intros s l s' i t I H T K. unfold task_is in *. unfold ystep in H. destruct (y_dead s); [discriminate|]. destruct l as [line|E j|fs ps]; [| |inj H; cbn; auto].
  - apply Some_inj in H. subst s'. destruct (get_line line) as [(g & l)| |]; cbn [obind or_die]; auto. destruct g; auto. cbn.
    rewrite nth_error_app1; auto. apply nth_error_Some. congruence.
  - apply step_moved in H.
    assert (G : forall t1 t2, nth_error (y_tasks s) j = Some t1 -> ~ ((exists ch x, t1 = TWait ch x) \/ t1 = TDo None \/ t1 = TEnd) ->
      nth_error (set_nth (y_tasks s) j t2) i = Some t).
    { intros t1 t2 J N. rewrite set_nth_other; auto. intros ->. rewrite T in J. inversion J; subst. auto. }
    destruct H.
    + exact T.
    + cbn. eapply G; eauto. intros [(? & ? & X)|[X|X]]; discriminate.
    + cbn. eapply G; eauto. intros [(? & ? & X)|[X|X]]; discriminate.
    + rewrite H6. destruct (Nat.eq_dec j i) as [->|N]; [|rewrite set_nth_other; auto]. rewrite T in H. inversion H; subst t0. exfalso.
      destruct K as [(ch & x & ->)|[->| ->]]; [eapply H1; reflexivity|congruence|congruence].
    + rewrite H6. rewrite nth_error_app1; [eapply G; eauto; intros [(? & ? & X)|[X|X]]; discriminate|].
      rewrite set_nth_length. apply nth_error_Some. congruence.
    + exfalso. destruct I as [_ _ _ _ _ IC]. rewrite Forall_forall in IC. apply nth_error_In in H0. apply IC in H0. discriminate.
    + destruct (beacon_step_kept _ _ _ _ _ _ H0) as (_ & _ & _ & _ & _ & _ & _ & _ & _ & todo & X). rewrite X.
      eapply G; eauto. intros [(? & ? & Y)|[Y|Y]]; discriminate.
    + exact T.
    + cbn. eapply G; eauto. intros [(? & ? & X)|[X|X]]; discriminate.
Qed.
Lemma stuck_run : forall ls s i t, inv s -> task_is s i t -> ((exists ch x, t = TWait ch x) \/ t = TDo None \/ t = TEnd) -> task_is (yrun s ls) i t.
Proof.
  induction ls as [|l ls IH]; intros s i t I T K; [exact T|]. cbn [yrun]. destruct (ystep s l) as [s1|] eqn:Y; [|apply IH; auto].
  apply IH; auto; [eapply step_inv; eauto|eapply stuck_step; eauto].
Qed.

(** C87: which commands wait for the end of the transfer they start *)
Lemma c87_who : forall s E i cmd rest s' a b c w, task_is s i (TStart (cmd :: rest)) -> task_step E s i = Some s' ->
  task_is s' i (TAdd a b c w) ->
  In cmd ["get"; "getdir"; "take"; "put"; "putblind"; "give"; "delete"] /\ a = cmd /\
  (w = true <-> In cmd ["put"; "putblind"; "give"; "delete"]).
Proof.
  intros s E i cmd rest s' a b c w T H A. unfold task_is in *. unfold task_step in H. rewrite T in H.
  assert (Z : forall t, nth_error (set_nth (y_tasks s) i t) i = Some t) by (intros; eapply set_nth_same; eauto).
  assert (D : forall t, nth_error (set_nth (y_tasks s) i t) i = Some (TAdd a b c w) -> t = TAdd a b c w) by (intros t X; rewrite Z in X; congruence).
  unfold start_step in H. destruct (lookup cmd setting_commands) as [f|].
  { destruct (existsb _ _); [discriminate|]. destruct (f _ _). apply Some_inj in H. subst s'. apply D in A. discriminate. }
  destruct (lookup cmd transfer_commands) as [tc|] eqn:L.
  - apply Some_inj in H. subst s'. unfold start_transfer in A.
    destruct rest as [|x [|y [|]]]; try (apply D in A; discriminate).
    destruct (udp_address (ce_resolve E) x) as ([peer|] & [e|]); try (apply D in A; discriminate).
    destruct (initiator_check _ _ _ _ _ _ _); apply D in A; [discriminate|]. inversion A. clear A D Z.
    unfold transfer_commands in L. cbn [lookup] in L.
    repeat (match type of L with context [String.eqb cmd ?b] => destruct (String.eqb_spec cmd b) as [->|_] end;
      [apply Some_inj in L; subst tc; cbn [tc_type tc_waits]; (split; [cbn; auto 10|]); (split; [reflexivity|]); cbn; intuition discriminate|]). discriminate.
  - exfalso. destruct (String.eqb cmd "beacon").
    { destruct (existsb _ _); [discriminate|]. destruct (cmd_beacon _ _ _) as ((? & ?) & ?). apply Some_inj in H. subst s'. apply D in A. discriminate. }
    repeat match type of H with (if ?b then _ else _) = _ => destruct b end; try discriminate.
    all: try (apply Some_inj in H; subst s'; apply D in A; discriminate).
    all: try (destruct (cmd_exit _ _); apply Some_inj in H; subst s'; apply D in A; discriminate).
    all: apply Some_inj in H; subst s'.
    all: match type of A with context [obind ?m _] => destruct m as [r| |] end; cbn [obind or_die] in A; [|cbn in A; congruence..].
    all: try destruct r as (? & ?); apply D in A; discriminate.
Qed.
(** C87: when such a command has added its transfer, it waits, and with it a new
    goroutine begins that is to do the transfer *)
Lemma c87_waits : forall s E i a b c s', task_is s i (TAdd a b c true) -> task_step E s i = Some s' ->
  s' = y_kill s \/
  exists t, task_is s' i (TWait (length (y_chans s)) t) /\ task_is s' (length (y_tasks s)) (TDo (Some (length (y_chans s)))).
Proof.
  intros s E i a b c s' T H. unfold task_is in *. unfold task_step in H. rewrite T in H. apply Some_inj in H.
  destruct (initiator_add _ _ _ _ _ _ _) as [(t' & t)| |] eqn:A; cbn [obind or_die] in H; subst s'; [right; exists t|left; reflexivity..].
  cbn. split.
  - rewrite nth_error_app1; [eapply set_nth_same; eauto|]. rewrite set_nth_length. apply nth_error_Some. congruence.
  - rewrite nth_error_app2; rewrite set_nth_length; [|auto]. now rewrite Nat.sub_diag.
Qed.
(** C87: ... and that goroutine does nothing but show an empty line and the line "Charles
    write some code to Do a transfer!!!!" and come to a standstill, without ever
    answering *)
Lemma c87_do : forall s E i ch s', task_is s i (TDo (Some ch)) -> task_step E s i = Some s' ->
  s' = y_show (become s i (TDo None)) [Text WMsg ""; Text WErr "Charles write some code to Do a transfer!!!!"] /\
  forall E', task_step E' s' i = None.
Proof.
  intros s E i ch s' T H. unfold task_is in T. unfold task_step in H. rewrite T in H. apply Some_inj in H. subst s'. split; [reflexivity|].
  intros E'. unfold task_step. cbn [y_show become y_with_tasks y_tasks]. now rewrite (set_nth_same _ _ _ _ T).
Qed.
(** C87: so the command never ends: it cannot make a step, now or ever *)
Lemma c87_never : forall s i ch t ls, reachable s -> task_is s i (TWait ch t) ->
  task_is (yrun s ls) i (TWait ch t) /\ forall E, task_step E (yrun s ls) i = None.
Proof.
  intros s i ch t ls R T. pose proof (reachable_inv _ R) as I. assert (W : task_is (yrun s ls) i (TWait ch t)) by (eapply stuck_run; eauto).
  split; [exact W|]. intros E. unfold task_step. unfold task_is in W. rewrite W.
  assert (R' : reachable (yrun s ls)) by (apply reachable_run; exact R). destruct (reachable_inv _ R') as [_ _ _ _ _ IC].
  destruct (nth_error (y_chans (yrun s ls)) ch) as [c|] eqn:N; [|reflexivity]. rewrite Forall_forall in IC. apply nth_error_In in N. apply IC in N. now subst c.
Qed.
Example c87_ex :
  let s := yrun ex_ystart [YLine "s[1]:put 10.0.0.2 a.txt"; YStep ex_cenv 0; YStep ex_cenv 0; YStep ex_cenv 1] in
  length (is_table (y_tran s)) = 1%nat /\ y_dead s = false /\ (exists t, task_is s 0 (TWait 0 t)) /\ task_is s 1 (TDo None).
Proof. vm_compute. repeat split. eexists; reflexivity. Qed.

(** ** The lock of the settings *)

(** C88: while a beacon command is not finished, no setting changes, however long that
    takes and whatever else happens *)
Lemma lock_step : forall s l s' i todo, inv s -> ystep s l = Some s' -> task_is s i (TBeacon todo) ->
  y_cli s' = y_cli s /\ bc_count (y_beacon s') = bc_count (y_beacon s) /\ bc_flags (y_beacon s') = bc_flags (y_beacon s).
Proof.
  intros s l s' i todo I H T. unfold task_is in *. unfold ystep in H. destruct (y_dead s); [discriminate|].
  assert (B : existsb holds_climu (y_tasks s) = true).
  { apply existsb_exists. exists (TBeacon todo). split; [eapply nth_error_In; eauto|reflexivity]. }
  destruct l as [line|E j|fs ps]; [| |inj H; cbn; auto].
  - apply Some_inj in H. subst s'. destruct (get_line line) as [(g & l)| |]; cbn [obind or_die]; auto. destruct g; auto.
  - apply step_moved in H. destruct H; try (rewrite H1 in B; discriminate); try (rewrite H0 in B; discriminate); auto.
    + destruct H5. rewrite k_cli, k_beacon. auto.
    + rewrite H0, H1. auto.
    + destruct H1. rewrite k_cli, k_beacon. auto.
    + destruct (beacon_step_kept _ _ _ _ _ _ H0) as (X & ? & ? & ? & ? & ? & ? & ? & ? & ? & Y). auto.
Qed.
Lemma lock_task : forall s l s' i todo, inv s -> ystep s l = Some s' -> task_is s i (TBeacon todo) ->
  (exists todo', task_is s' i (TBeacon todo')) \/ task_is s' i TEnd.
Proof.
  intros s l s' i todo I H T. unfold task_is in *. unfold ystep in H. destruct (y_dead s); [discriminate|]. destruct l as [line|E j|fs ps]; [| |inj H; cbn; eauto].
  - left. exists todo. apply Some_inj in H. subst s'. destruct (get_line line) as [(g & l)| |]; cbn [obind or_die]; auto. destruct g; auto. cbn.
    rewrite nth_error_app1; auto. apply nth_error_Some. congruence.
  - apply step_moved in H.
    assert (G : forall t1 t2, nth_error (y_tasks s) j = Some t1 -> holds_climu t1 = false -> nth_error (set_nth (y_tasks s) j t2) i = Some (TBeacon todo)).
    { intros t1 t2 J N. rewrite set_nth_other; auto. intros ->. rewrite T in J. inversion J; subst. discriminate. }
    destruct H.
    + eauto.
    + left. exists todo. cbn. eapply G; eauto.
    + left. exists todo. cbn. eapply G; eauto.
    + left. exists todo. rewrite H6. eapply G; eauto.
    + left. exists todo. rewrite H6. rewrite nth_error_app1; [eapply G; eauto|]. rewrite set_nth_length. apply nth_error_Some. congruence.
    + left. exists todo. rewrite H2. eapply G; eauto.
    + left. destruct (beacon_step_kept _ _ _ _ _ _ H0) as (_ & _ & _ & _ & _ & _ & _ & _ & _ & todo' & X). rewrite X.
      destruct (Nat.eq_dec j i) as [->|N]; [exists todo'; eapply set_nth_same; eauto|exists todo; rewrite set_nth_other; auto].
    + eauto.
    + cbn. destruct (Nat.eq_dec j i) as [->|N]; [right; eapply set_nth_same; eauto|left; exists todo; rewrite set_nth_other; auto].
Qed.
(** C88: from the moment a beacon command has the settings until it has finished, no
    setting changes, and neither do the flags and the number of its beacons, whatever
    else is typed *)
Lemma c88_frozen : forall ls s i todo todo', reachable s -> task_is s i (TBeacon todo) -> task_is (yrun s ls) i (TBeacon todo') ->
  y_cli (yrun s ls) = y_cli s /\ bc_count (y_beacon (yrun s ls)) = bc_count (y_beacon s) /\ bc_flags (y_beacon (yrun s ls)) = bc_flags (y_beacon s).
Proof.
  induction ls as [|l ls IH]; intros s i todo todo' R T T'; [auto|]. cbn [yrun] in *. pose proof (reachable_inv _ R) as I.
  destruct (ystep s l) as [s1|] eqn:Y; [|eapply IH; eauto].
  assert (R1 : reachable s1). { pose proof (reachable_run s [l] R) as X. cbn [yrun] in X. now rewrite Y in X. }
  destruct (lock_step _ _ _ _ _ I Y T) as (A & B & C). destruct (lock_task _ _ _ _ _ I Y T) as [(t1 & T1)|T1].
  - destruct (IH s1 i t1 todo' R1 T1 T') as (A1 & B1 & C1). rewrite A1, B1, C1. auto.
  - exfalso. assert (X : task_is (yrun s1 ls) i TEnd) by (eapply stuck_run; [eapply reachable_inv; eauto|eauto|auto]). unfold task_is in *. congruence.
Qed.
(** C88: one beacon command at a time *)
Lemma c88_one : forall s i j t u, reachable s -> task_is s i (TBeacon t) -> task_is s j (TBeacon u) -> i = j.
Proof. intros s i j t u R A B. destruct (reachable_inv _ R) as [_ _ _ I1 _ _]. apply I1; [exists t|exists u]; auto. Qed.

Lemma get_line_command : forall line ws l, get_line line = Ret (Some ws, l) -> exists cmd rest, ws = cmd :: rest /\ In cmd command_names.
Proof.
  intros line ws l H. unfold get_line in H. destruct (index (split_two ":" line) 1) as [text| |]; [|discriminate..]. cbn [obind] in H.
  destruct (String.eqb text ""); [discriminate|]. destruct (one_of text ["exit"; "quit"]); [discriminate|]. unfold run_line in H.
  destruct (String.eqb text ""); [discriminate|]. destruct (fields (trim_space text)) as [|v vs]; [discriminate|].
  destruct (has_key v sar_commands); [|discriminate]. destruct (one_of v handler_names) eqn:O; [|discriminate]. cbn [obind] in H. inversion H.
  exists v, vs. split; [reflexivity|]. apply is_command. exact O.
Qed.
Lemma starts_run : forall ls s, (forall args, In (TStart args) (y_tasks s) -> exists cmd rest, args = cmd :: rest /\ In cmd command_names) ->
  forall args, In (TStart args) (y_tasks (yrun s ls)) -> exists cmd rest, args = cmd :: rest /\ In cmd command_names.
Proof.
  induction ls as [|l ls IH]; intros s A; [exact A|]. cbn [yrun]. destruct (ystep s l) as [s1|] eqn:Y; [|apply IH; auto]. apply IH. clear IH.
  intros args J. unfold ystep in Y. destruct (y_dead s); [discriminate|]. destruct l as [line|E i|fs ps]; [| |inj Y; apply (A _ J)].
  - apply Some_inj in Y. subst s1. destruct (get_line line) as [(g & l)| |] eqn:G; cbn [obind or_die] in J; auto.
    destruct g; auto. cbn in J. apply in_app_or in J. destruct J as [J|[J|[]]]; auto. inversion J; subst. eapply get_line_command; eauto.
  - apply A. eapply moved_starts; [apply step_moved; eauto|auto].
Qed.
(** C88: a goroutine that begins waits exactly if its command reads or changes the
    settings and a beacon command is not finished *)
Lemma c88_waits : forall s j args, reachable s -> task_is s j (TStart args) ->
  exists cmd rest, args = cmd :: rest /\ In cmd command_names /\
    forall E, task_step E s j = None <-> In cmd locking /\ exists i todo, task_is s i (TBeacon todo).
Proof.
  intros s j args R T. destruct R as (fs & cwd & peers & ls & ->).
  destruct (starts_run ls (ystart fs cwd peers)) with (args := args) as (cmd & rest & -> & C); [intros a []|eapply nth_error_In; exact T|].
  remember (yrun (ystart fs cwd peers) ls) as s. clear Heqs fs cwd peers ls.
  exists cmd, rest. split; [reflexivity|]. split; [exact C|]. intros E. unfold task_step. unfold task_is in T. rewrite T.
  assert (B : existsb holds_climu (y_tasks s) = true <-> exists i todo, task_is s i (TBeacon todo)).
  { split; [apply busy_held|]. intros (i & todo & H). apply existsb_exists. exists (TBeacon todo). split; [eapply nth_error_In; eauto|reflexivity]. }
  unfold start_step. 
  assert (L : (exists f, lookup cmd setting_commands = Some f) \/ (lookup cmd setting_commands = None /\ (cmd = "beacon" \/ ~ In cmd locking))).
  { cbn in C. repeat (destruct C as [<-|C]; [first [left; eexists; reflexivity|right; split; [reflexivity|first [left; reflexivity|right; cbn; intuition discriminate]]]|]). destruct C. }
  destruct L as [(f & L)|(L & D)].
  - assert (K : In cmd locking).
    { unfold setting_commands in L. cbn [lookup] in L.
      repeat (match type of L with context [String.eqb cmd ?b] => destruct (String.eqb_spec cmd b) as [->|_] end; [cbn; auto 20|]). discriminate. }
    rewrite L. destruct (existsb holds_climu (y_tasks s)).
    + split; [intros _; split; auto; apply B; auto|auto].
    + destruct (f (y_cli s) (cmd :: rest)). split; [discriminate|]. intros (_ & X). apply B in X. discriminate.
  - rewrite L. destruct D as [->|D].
    + change (lookup "beacon" transfer_commands) with (@None tcommand). change (String.eqb "beacon" "beacon") with true. cbv iota.
      destruct (existsb holds_climu (y_tasks s)).
      * split; [intros _; split; [cbn; auto|apply B; auto]|auto].
      * destruct (cmd_beacon _ _ _) as ((? & ?) & ?). split; [discriminate|]. intros (_ & X). apply B in X. discriminate.
    + split; [|intros (X & _); contradiction]. intros H. exfalso. clear B L T.
      cbn in C. repeat (destruct C as [<-|C]; [|]); try destruct C.
      all: try (apply D; cbn; auto 20; fail).
      all: clear D.
      all: repeat match type of H with
      | context [lookup ?a transfer_commands] => let x := eval vm_compute in (has_key a transfer_commands) in
          match x with true => discriminate H | false => change (lookup a transfer_commands) with (@None tcommand) in H end
      end.
      all: cbv iota in H.
      all: repeat match type of H with
      | context [String.eqb ?a ?b] => let x := eval vm_compute in (String.eqb a b) in change (String.eqb a b) with x in H
      | context [one_of ?a ?b] => let x := eval vm_compute in (one_of a b) in change (one_of a b) with x in H
      end; cbv iota in H; try discriminate.
      all: destruct (cmd_exit _ _); discriminate.
Qed.
Example c88_ex :
  let s := yrun ex_ystart [YLine "s[1]:beacon 10.0.0.2"; YStep ex_cenv 0; YLine "s[2]:stream yes"; YLine "s[3]:tran"] in
  task_is s 0 (TBeacon [BHost false "10.0.0.2"]) /\ task_step ex_cenv s 1 = None /\ task_step ex_cenv s 2 <> None /\
  let s' := yrun s [YStep ex_cenv 0; YStep ex_cenv 1; YStep ex_cenv 0; YStep ex_cenv 0; YStep ex_cenv 0; YStep ex_cenv 0; YStep ex_cenv 0] in
  task_is s' 0 TEnd /\ value (y_cli s') (Flag "stream") = KText "no" /\ value (y_cli (yrun s' [YStep ex_cenv 1])) (Flag "stream") = KText "yes".
Proof. vm_compute. repeat split. discriminate. Qed.

(** ** What the beacon command says *)

Lemma cmd_beacon_flags : forall c b rest b' l todo, cmd_beacon c b ("beacon" :: rest) = (b', l, todo) ->
  (bc_v4 b' = true <-> bc_v4 b = true \/ rest = ["v4"]) /\ (bc_v6 b' = true <-> bc_v6 b = true \/ rest = ["v6"]).
Proof.
  intros c b rest b' l todo H. destruct rest as [|a [|y r]]; cbn [cmd_beacon] in H.
  - destruct (_ && _); inversion H; subst; cbn; intuition discriminate.
  - destruct (String.eqb_spec a "?") as [->|]; [inversion H; subst; cbn; intuition discriminate|].
    destruct (String.eqb_spec a "off") as [->|]; [inversion H; subst; cbn; intuition discriminate|].
    destruct (String.eqb_spec a "v4") as [->|]; [inversion H; subst; cbn; intuition discriminate|].
    destruct (String.eqb_spec a "v6") as [->|]; [inversion H; subst; cbn; intuition discriminate|].
    inversion H; subst; cbn; intuition congruence.
  - inversion H; subst; cbn; intuition discriminate.
Qed.
Lemma beacon_step_flags : forall E s i x rest s', beacon_step E s i x rest = Ret s' ->
  bc_v4 (y_beacon s') = bc_v4 (y_beacon s) /\ bc_v6 (y_beacon s') = bc_v6 (y_beacon s).
Proof.
  intros E s i x rest s' H. destruct x as [off text|text|to b more]; cbn [beacon_step] in H.
  - destruct (udp_address (ce_resolve E) text) as ([to|] & [e|]); try (inversion H; subst; split; reflexivity).
    destruct off; [inversion H; subst; split; reflexivity|].
    destruct (begin_beacons E (y_beacon s) to) as [(r & l)| |]; [|discriminate..]. cbn [obind] in H. inversion H; subst. split; reflexivity.
  - destruct (udp_address (ce_resolve E) text) as ([to|] & [e|]); try (inversion H; subst; split; reflexivity).
    destruct (begin_beacons E (y_beacon s) to) as [(r & l)| |]; [|discriminate..]. cbn [obind] in H. inversion H; subst. split; reflexivity.
  - destruct (more =? 0); [inversion H; subst; split; reflexivity|].
    destruct (beacon_encode b) as [[f|e]| |]; [..|discriminate|discriminate]; cbn [obind] in H; [|inversion H; subst; split; reflexivity].
    destruct (ce_write E); [|inversion H; subst; split; reflexivity].
    destruct (beacon_shortprint_ok b); [|discriminate..]. cbn [obind] in H. inversion H; subst. split; reflexivity.
Qed.
(** The flags after a step *)
Lemma step_flags : forall s l s', ystep s l = Some s' ->
  (bc_v4 (y_beacon s') = true <-> bc_v4 (y_beacon s) = true \/ exists E i, l = YStep E i /\ task_is s i (TStart ["beacon"; "v4"])) /\
  (bc_v6 (y_beacon s') = true <-> bc_v6 (y_beacon s) = true \/ exists E i, l = YStep E i /\ task_is s i (TStart ["beacon"; "v6"])).
Proof.
  intros s l s' H. unfold ystep in H. destruct (y_dead s); [discriminate|]. destruct l as [line|E i|fs ps]; [| |inj H; cbn; split; (split; [auto|]); intros [Z|(E & i & Z & _)]; auto; discriminate].
  - assert (X : y_beacon s' = y_beacon s).
    { apply Some_inj in H. subst s'. destruct (get_line line) as [(g & l)| |]; cbn [obind or_die]; auto. destruct g; auto. }
    rewrite X. split; (split; [auto|]); intros [Z|(E & i & Z & _)]; auto; discriminate.
  - assert (G : y_beacon s' = y_beacon s \/ (bc_v4 (y_beacon s') = bc_v4 (y_beacon s) /\ bc_v6 (y_beacon s') = bc_v6 (y_beacon s)) ->
      (forall w, ~ task_is s i (TStart ["beacon"; w])) ->
      (bc_v4 (y_beacon s') = true <-> bc_v4 (y_beacon s) = true \/ exists E0 i0, YStep E i = YStep E0 i0 /\ task_is s i0 (TStart ["beacon"; "v4"])) /\
      (bc_v6 (y_beacon s') = true <-> bc_v6 (y_beacon s) = true \/ exists E0 i0, YStep E i = YStep E0 i0 /\ task_is s i0 (TStart ["beacon"; "v6"]))).
    { intros K N. assert (V : bc_v4 (y_beacon s') = bc_v4 (y_beacon s) /\ bc_v6 (y_beacon s') = bc_v6 (y_beacon s)) by (destruct K as [->|K]; auto).
      destruct V as (-> & ->). split; (split; [auto|]); intros [Z|(E0 & i0 & Z & T)]; auto; inversion Z; subst; now apply N in T. }
    destruct (nth_error (y_tasks s) i) as [t|] eqn:N.
    2: { apply step_moved in H. destruct H; congruence. }
    destruct (match t with TStart ("beacon" :: _) => true | _ => false end) eqn:TB.
    + destruct t as [args| | | | |]; try discriminate. destruct args as [|cmd rest]; [discriminate|].
      assert (cmd = "beacon").
      { destruct (String.eqb_spec cmd "beacon"); auto. exfalso. revert TB n. clear. intros TB n.
        repeat match type of TB with context [match ?x with _ => _ end] => destruct x; try discriminate end. now apply n. }
      subst cmd. clear TB. unfold task_step in H. rewrite N in H. unfold start_step in H.
      change (lookup "beacon" setting_commands) with (@None (cliflags -> list string -> setting)) in H.
      change (lookup "beacon" transfer_commands) with (@None tcommand) in H. change (String.eqb "beacon" "beacon") with true in H. cbv iota in H.
      destruct (existsb holds_climu (y_tasks s)); [discriminate|]. destruct (cmd_beacon (y_cli s) (y_beacon s) ("beacon" :: rest)) as ((b & l) & todo) eqn:CB.
      apply Some_inj in H. subst s'. destruct (cmd_beacon_flags _ _ _ _ _ _ CB) as (A & B). cbn [y_show become y_with_tasks y_with_beacon y_beacon].
      rewrite A, B. unfold task_is. split; (split; [intros [X|X]; [auto|right; exists E, i; subst; auto]|]); intros [X|(E0 & i0 & X & Y)]; auto; inversion X; subst; right; congruence.
    + apply G.
      * apply step_moved in H. destruct H; try (left; reflexivity).
        -- rewrite H in N. inversion N; subst t. discriminate TB.
        -- left. apply H5.
        -- left. exact H1.
        -- left. apply H1.
        -- right. eapply beacon_step_flags; eauto.
      * intros w T. unfold task_is in T. rewrite T in N. inversion N; subst t. discriminate TB.
Qed.
Lemma begun_snoc : forall w s ls l, was_begun w s (ls ++ [l])%list <->
  was_begun w s ls \/ exists E i s1, l = YStep E i /\ task_is (yrun s ls) i (TStart ["beacon"; w]) /\ ystep (yrun s ls) (YStep E i) = Some s1.
Proof.
  intros w s ls l. split.
  - intros (l1 & E & i & l2 & s1 & EQ & T & Y). destruct (@exists_last _ (YStep E i :: l2)) as (p & q & PQ); [discriminate|].
    rewrite PQ, app_assoc in EQ. apply app_inj_tail in EQ. destruct EQ as (-> & ->). destruct p as [|p0 p].
    + right. inversion PQ; subst. rewrite app_nil_r. exists E, i, s1. auto.
    + left. inversion PQ; subst. exists l1, E, i, p, s1. auto.
  - intros [(l1 & E & i & l2 & s1 & -> & T & Y)|(E & i & s1 & -> & T & Y)].
    + exists l1, E, i, (l2 ++ [l])%list, s1. rewrite <- app_assoc. auto.
    + exists ls, E, i, [], s1. auto.
Qed.
Lemma flags_run : forall fs cwd peers ls, let s := ystart fs cwd peers in
  (bc_v4 (y_beacon (yrun s ls)) = true <-> was_begun "v4" s ls) /\ (bc_v6 (y_beacon (yrun s ls)) = true <-> was_begun "v6" s ls).
Proof.
  intros fs cwd peers ls s. induction ls as [|l ls IH] using rev_ind.
  - cbn. split; (split; [discriminate|]); intros (l1 & E & i & l2 & s1 & X & _); destruct l1; discriminate.
  - rewrite !begun_snoc, yrun_app. cbn [yrun]. destruct IH as (A & B). destruct (ystep (yrun s ls) l) as [s1|] eqn:Y.
    + destruct (step_flags _ _ _ Y) as (-> & ->). rewrite A, B.
      split; (split; [intros [X|(E & i & -> & T)]; [auto|right; exists E, i, s1; auto]|intros [X|(E & i & s2 & -> & T & _)]; [auto|right; exists E, i; auto]]).
    + rewrite A, B. split; (split; [auto|intros [X|(E & i & s2 & -> & T & Z)]; [auto|congruence]]).
Qed.
(** C89: "beacon" reports the multicast groups that were ever asked for, and nothing
    else: the addresses given to beacon commands are never reported, "beacon off" has no
    effect, and it is not said whether a beacon was or will be sent (defect) *)
Lemma c89_status : forall fs cwd peers ls E i s' v4 v6, let s0 := ystart fs cwd peers in let s := yrun s0 ls in
  task_is s i (TStart ["beacon"]) -> ystep s (YStep E i) = Some s' ->
  (v4 = true <-> was_begun "v4" s0 ls) -> (v6 = true <-> was_begun "v6" s0 ls) ->
  y_shown s' = (y_shown s ++ beacon_status (cl_bcount (y_cli s)) v4 v6)%list /\ task_is s' i (TBeacon []).
Proof.
  intros fs cwd peers ls E i s' v4 v6 s0 s T Y V4 V6. destruct (flags_run fs cwd peers ls) as (A & B). fold s0 in A, B. fold s in A, B.
  assert (E4 : bc_v4 (y_beacon s) = v4) by (destruct (bc_v4 (y_beacon s)), v4; intuition congruence).
  assert (E6 : bc_v6 (y_beacon s) = v6) by (destruct (bc_v6 (y_beacon s)), v6; intuition congruence).
  assert (R : reachable s) by (exists fs, cwd, peers, ls; reflexivity). destruct (reachable_inv _ R) as [_ _ IH _ _ _].
  unfold ystep in Y. destruct (y_dead s); [discriminate|]. unfold task_step in Y. unfold task_is in T. rewrite T in Y. unfold start_step in Y.
  change (lookup "beacon" setting_commands) with (@None (cliflags -> list string -> setting)) in Y.
  change (lookup "beacon" transfer_commands) with (@None tcommand) in Y. change (String.eqb "beacon" "beacon") with true in Y. cbv iota in Y.
  destruct (existsb holds_climu (y_tasks s)); [discriminate|]. cbn [cmd_beacon bc_v4 bc_v6 bc_hosts bc_count] in Y. rewrite E4, E6, IH in Y.
  change (Nat.eqb (length (@nil udpaddr)) 0) with true in Y. change (Nat.ltb 0 (length (@nil udpaddr))) with false in Y.
  unfold beacon_status, task_is. destruct v4, v6; cbn [negb andb orb] in *; cbv iota in Y; apply Some_inj in Y; subst s';
    (split; [reflexivity|cbn; eapply set_nth_same; eauto]).
Qed.
Example c89_ex :
  let s := yrun ex_ystart [YLine "s[1]:beacon v4"; YStep ex_cenv 0; YStep ex_cenv 0; YStep ex_cenv 0; YStep ex_cenv 0; YStep ex_cenv 0; YStep ex_cenv 0; YStep ex_cenv 0;
                           YLine "s[2]:beacon off"; YStep ex_cenv 1; YStep ex_cenv 1; YLine "s[3]:beacon"; YStep ex_cenv 2] in
  task_is s 0 TEnd /\ task_is s 1 TEnd /\ task_is s 2 (TBeacon []) /\
  exists l, y_shown s = (l ++ [Text WMsg "Beacons Disabled"; Text WMsg ("Sending 3 IPv4 multicast beacons" ++ nl)])%list.
Proof. vm_compute. repeat split. eexists [_; _; _; _; _]; reflexivity. Qed.
