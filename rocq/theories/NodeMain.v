From Verif Require Import GoBase GoFacts Flags Config Shipped SpecFlags FlagsFacts ConfigFacts FlagsMain SpecWire SarFacts Timestamp SpecTime TimeMain Holes Data SpecFrames FrameFacts BuildFacts DataMain Status SpecStatus StatusMain Request SpecRequest RequestMain Beacon SpecBeacon BeaconMain Peers SpecPeers PeersMain Fileio SpecFileio FileioMain Dirent SpecDirent DirentMain Metadata SpecMetadata MetadataMain Trans Listen SpecListen ListenMain TransMain Daemon SpecDaemon DaemonMain Sarnet Transfer SpecTransfer TransferMain Words SpecWords WordsFacts Cli SpecCli CliFacts CliFacts2 CliMain SpecRun RunFacts RunMain SpecSend SendMain SpecShow ShowMain Node SpecNode.
Local Open Scope string_scope.
Local Open Scope N_scope.

(** ** The parts of a node *)

(** The daemon does not depend on the directories: no request is ever dealt with *)
Lemma dstep_any : forall mtu cwd sardir s l, dstep (the_daemon mtu cwd sardir) s l = dstep (the_daemon mtu [] "") s l.
Proof.
  intros mtu cwd sardir s l. unfold dstep. destruct (ds_dead s); [reflexivity|]. destruct l as [f now d from|f|i j now| | |fs]; try reflexivity.
Qed.
Lemma peers_kept : forall s l s', ystep s l = Some s' -> (forall fs ps, l <> YOther fs ps) -> y_peers s' = y_peers s.
Proof.
  intros s l s' H N. unfold ystep in H. destruct (y_dead s); [discriminate|]. destruct l as [line|E i|fs ps]; [| |exfalso; exact (N _ _ eq_refl)].
  - inj H. destruct (get_line line) as [(g & l)| |]; cbn [obind or_die]; auto. destruct g; auto.
  - apply step_moved in H. destruct H; cbn; auto; try (destruct H5; auto; fail).
    + destruct H1; auto.
    + apply beacon_step_kept in H0. apply H0.
Qed.
Lemma yrun_snoc : forall s ls l s', ystep (yrun s ls) l = Some s' -> yrun s (ls ++ [l]) = s'.
Proof. intros s ls l s' H. rewrite yrun_app. cbn [yrun]. now rewrite H. Qed.
Lemma drun_snoc : forall su s ls l s', dstep su (drun su s ls) l = Some s' -> drun su s (ls ++ [l]) = s'.
Proof. intros su s ls l s' H. rewrite drun_app. cbn [drun]. now rewrite H. Qed.

(** What a node's step is, seen from its parts *)
Definition dlabel (n : node) (l : nlabel) (n' : node) : label := match l with NNet l => l | _ => Files (is_fs (y_tran (n_cli n'))) end.
Definition clabel (l : nlabel) (n' : node) : ylabel :=
  match l with
  | NNet _ => YOther (w_fs (ds_world (n_net n'))) (w_peers (ds_world (n_net n')))
  | NLine line => YLine line
  | NStep E i => YStep E i
  end.
Lemma nstep_parts : forall mtu n l n', nstep mtu n l = Some n' ->
  n_dead n = false /\
  dstep (the_daemon mtu [] "") (n_net n) (dlabel n l n') = Some (n_net n') /\ ystep (n_cli n) (clabel l n') = Some (n_cli n') /\
  (y_peers (n_cli n) = w_peers (ds_world (n_net n)) -> y_peers (n_cli n') = w_peers (ds_world (n_net n'))).
Proof.
  intros mtu n l n' H. unfold nstep in H. destruct (n_dead n) eqn:D; [discriminate|]. split; [reflexivity|].
  unfold n_dead in D. apply orb_false_iff in D as (D1 & D2).
  assert (C : forall yl, (forall fs ps, yl <> YOther fs ps) -> nstep_cli n yl = Some n' ->
    dstep (the_daemon mtu [] "") (n_net n) (Files (is_fs (y_tran (n_cli n')))) = Some (n_net n') /\ ystep (n_cli n) yl = Some (n_cli n') /\
    (y_peers (n_cli n) = w_peers (ds_world (n_net n)) -> y_peers (n_cli n') = w_peers (ds_world (n_net n')))).
  { intros yl NO X. unfold nstep_cli in X. destruct (ystep (n_cli n) yl) as [c|] eqn:Y; [|discriminate]. inj X. cbn [n_net n_cli].
    split; [unfold dstep; rewrite D1; reflexivity|]. split; [reflexivity|]. intros P. cbn. now rewrite (peers_kept _ _ _ Y NO). }
  destruct l as [l|line|E i].
  - unfold node_setup in H. rewrite dstep_any in H. destruct (dstep _ (n_net n) l) as [d|] eqn:S; [|discriminate]. inj H. cbn [dlabel clabel n_net n_cli].
    split; [exact S|]. split; [unfold ystep; rewrite D2; reflexivity|]. intros _. reflexivity.
  - apply C; [discriminate|exact H].
  - apply C; [discriminate|exact H].
Qed.

(** A listener waits with what it made of a datagram *)
Definition made (mtu : Z) (s : dstate) : Prop := forall f p,
  (ds_listener s f = LRx p -> exists now d from, listen_one now mtu d from = Ret (ToRx p)) /\
  (ds_listener s f = LTx p -> exists now d from, listen_one now mtu d from = Ret (ToTx p)).
Lemma made_step : forall su s l s', made (su_mtu su) s -> dstep su s l = Some s' -> made (su_mtu su) s'.
Proof.
  intros su s l s' I H. destruct l as [f now d from|f|i j now| | |fs].
  - unfold dstep in H. destruct (ds_dead s); [discriminate|]. destruct (ds_listener s f) eqn:L; try discriminate. inj H.
    destruct (listen_one now (su_mtu su) d from) as [[|p|p]| |] eqn:LO; try exact I; intros g q; cbn [set_l note_read ds_listener];
    (destruct (family_dec g f) as [->|N]; [rewrite upd_same; split; intros X; inversion X; subst; eauto|rewrite upd_other by auto; apply I]).
  - unfold dstep in H. destruct (ds_dead s); [discriminate|]. destruct (ds_listener s f) eqn:L; try discriminate. inj H.
    intros g q; cbn [set_l ds_listener]. destruct (family_dec g f) as [->|N]; [rewrite upd_same; split; discriminate|rewrite upd_other by auto; apply I].
  - apply meet_cases in H. destruct H as (_ & _ & _ & f & _ & H).
    assert (G : forall s1 x, (forall p, x <> LRx p /\ x <> LTx p) -> ds_listener s1 = upd (ds_listener s) f x -> made (su_mtu su) s1).
    { intros s1 x X E g q. rewrite E. destruct (family_dec g f) as [->|N]; [rewrite upd_same; split; intros Y; exfalso; destruct (X q); auto|rewrite upd_other by auto; apply I]. }
    destruct H as [(p & L & ->)|[(p & L & ->)|(L & ->)]].
    + apply (G _ LRead); [split; discriminate|]. apply received_fields.
    + apply (G _ LRead); [split; discriminate|]. apply received_fields.
    + apply (G _ LGone); [split; discriminate|]. reflexivity.
  - unfold dstep in H. destruct (ds_dead s); [discriminate|]. inj H. exact I.
  - unfold dstep in H. destruct (ds_dead s); [discriminate|]. destruct (ds_main s); [|discriminate]. destruct (ds_errflag s); [|discriminate]. inj H. exact I.
  - unfold dstep in H. destruct (ds_dead s); [discriminate|]. inj H. exact I.
Qed.

(** What holds of every node *)
Record nok (mtu : Z) (n : node) : Prop := {
  nk_net : reachable_good (the_daemon mtu [] "") (n_net n);
  nk_cli : SpecRun.reachable (n_cli n);
  nk_peers : y_peers (n_cli n) = w_peers (ds_world (n_net n));
  nk_made : made mtu (n_net n) }.
Lemma nok_start : forall mtu fs cwd, nok mtu (nstart fs cwd).
Proof.
  intros mtu fs cwd. split.
  - exists fs, []. split; [intros l []|reflexivity].
  - exists fs, cwd, [], []. reflexivity.
  - reflexivity.
  - intros f p. split; discriminate.
Qed.
Lemma nok_step : forall mtu n l n', good_nlabel l -> nok mtu n -> nstep mtu n l = Some n' -> nok mtu n'.
Proof.
  intros mtu n l n' G [(fs & dls & GD & ND) (fs' & cwd & ps & yls & NY) P M] H. apply nstep_parts in H. destruct H as (_ & HD & HY & HP). split.
  - exists fs, (dls ++ [dlabel n l n'])%list. split.
    + intros x X. apply in_app_or in X as [X|[<-|[]]]; auto. destruct l; [exact G|exact I|exact I].
    + rewrite ND in HD. symmetry. apply drun_snoc. exact HD.
  - exists fs', cwd, ps, (yls ++ [clabel l n'])%list. symmetry. apply yrun_snoc. rewrite <- NY. exact HY.
  - apply HP, P.
  - exact (made_step (the_daemon mtu [] "") _ _ _ M HD).
Qed.
Lemma nok_run : forall mtu ls n, (forall l, In l ls -> good_nlabel l) -> nok mtu n -> nok mtu (nrun mtu n ls).
Proof.
  intros mtu. induction ls as [|l ls IH]; intros n G K; [exact K|]. cbn [nrun]. apply IH; [intros; apply G; right; auto|].
  destruct (nstep mtu n l) eqn:S; [|exact K]. eapply nok_step; eauto. apply G. left; auto.
Qed.
Lemma nok_reach : forall mtu n, runs_to mtu n -> nok mtu n.
Proof. intros mtu n (fs & cwd & ls & G & ->). apply nok_run; [exact G|apply nok_start]. Qed.

(** ** C98 *)
Lemma alive_both : forall n, n_dead n = false -> ds_dead (n_net n) = false /\ y_dead (n_cli n) = false.
Proof. intros n D. apply orb_false_iff in D. exact D. Qed.
Lemma nok_table : forall mtu n, nok mtu n -> n_dead n = false -> right_table (heard_by n) (y_peers (n_cli n)).
Proof.
  intros mtu n [R _ P _] D. apply alive_both in D as (D & _). rewrite P. unfold heard_by. exact (c76_peers mtu [] "" (n_net n) R D).
Qed.
Lemma table_writable : forall hist ps, right_table hist ps -> Forall (fun p => writable (p_created p) /\ writable (p_updated p)) ps.
Proof.
  intros hist ps (_ & _ & R). apply Forall_forall. intros p I. destruct (R p I) as (lt & rest & c & _ & _ & -> & _ & ->).
  split; eexists; vm_compute; reflexivity.
Qed.
(** C98: the peers command of the running program never fails, and shows exactly the table
    that the beacons heard so far call for *)
Lemma c98_peers : forall mtu n E i, runs_to mtu n -> n_dead n = false -> task_is (n_cli n) i (TStart ["peers"]) ->
  exists n' ps, nstep mtu n (NStep E i) = Some n' /\ n_dead n' = false /\ right_table (heard_by n) ps /\
    only_shows (n_cli n) i (match heard_by n with [] => [Text WMsg "No Peers"] | _ => [Peers ps] end) (n_cli n').
Proof.
  intros mtu n E i R D T. pose proof (nok_reach mtu n R) as K. pose proof (nok_table mtu n K D) as RT.
  destruct (c94_peers E (n_cli n) i T (table_writable _ _ RT)) as (c & S & O).
  assert (NS : exists n', nstep mtu n (NStep E i) = Some n' /\ n_cli n' = c /\ ds_dead (n_net n') = ds_dead (n_net n)).
  { unfold nstep. rewrite D. unfold nstep_cli, ystep. apply alive_both in D as (_ & D2). rewrite D2, S. eexists. split; [reflexivity|]. split; reflexivity. }
  destruct NS as (n' & NS & NC & ND). exists n', (y_peers (n_cli n)). split; [exact NS|]. split; [|split; [exact RT|]].
  - apply alive_both in D as (D1 & D2). unfold n_dead. rewrite ND, D1, NC. cbn. rewrite (ew_dead _ _ _ _ _ O). exact D2.
  - rewrite NC. destruct RT as (_ & A & _).
    assert (X : y_peers (n_cli n) = [] <-> heard_by n = []).
    { split; intros Z.
      - destruct (heard_by n) as [|h r] eqn:HB; [reflexivity|exfalso]. assert (F : exists a, sg_from h = Some a).
        { assert (I : In h (heard_by n)) by (rewrite HB; left; auto). unfold heard_by, beacons_of in I. apply in_flat_map in I as (x & _ & I).
          destruct (pk_info (snd x)); [|destruct I..]. destruct I as [<-|[]]. eexists; reflexivity. }
        destruct F as (a & F). pose proof (proj2 (A a)) as Q. rewrite Z in Q. apply Q. exists h. split; [left; auto|exact F].
      - destruct (y_peers (n_cli n)) as [|p r] eqn:Y; [reflexivity|exfalso]. rewrite Z in A. destruct (proj1 (A (p_addr p))) as (b & [] & _). left; auto. }
    destruct (heard_by n) eqn:HB; [rewrite (proj2 X eq_refl) in O; exact O|].
    destruct (y_peers (n_cli n)) eqn:Y; [exfalso; pose proof (proj1 X eq_refl); discriminate|]. exact O.
Qed.

(** ** C99 *)
Lemma meet_dies : forall mtu s i j now s', reachable_good (the_daemon mtu [] "") s -> made mtu s -> good_now now ->
  dstep (the_daemon mtu [] "") s (Meet i j now) = Some s' ->
  (ds_dead s' = true <-> exists f, i = GListen f /\ j = GMain /\
     (ds_listener s f = LQuit \/
      exists p, ds_listener s f = LRx p /\ match pk_info p with FRequest _ => True | FMetadata m => 4 <= hd_csumtype (m_header m) | _ => False end)).
Proof.
  intros mtu s i j now s' R M G H. apply meet_cases in H. destruct H as (D & _ & -> & f & -> & H).
  assert (U : forall P : Prop, ((exists g, GListen f = GListen g /\ GMain = GMain /\ (ds_listener s g = LQuit \/ exists p, ds_listener s g = LRx p /\
      match pk_info p with FRequest _ => True | FMetadata m => 4 <= hd_csumtype (m_header m) | _ => False end)) <-> P) <->
     ((ds_listener s f = LQuit \/ exists p, ds_listener s f = LRx p /\
      match pk_info p with FRequest _ => True | FMetadata m => 4 <= hd_csumtype (m_header m) | _ => False end) <-> P)).
  { intros P. split; intros X; rewrite <- X; split.
    - intros Y. exists f. auto.
    - intros (g & Y & _ & Z). inversion Y; subst g. exact Z.
    - intros (g & Y & _ & Z). inversion Y; subst g. exact Z.
    - intros Y. exists f. auto. }
  apply iff_sym, U, iff_sym. clear U.
  destruct H as [(p & L & ->)|[(p & L & ->)|(L & ->)]]; rewrite L.
  - destruct (proj1 (M f p) L) as (now0 & d & from & LO). pose proof (c75_survives now0 mtu d from p now [] "" (ds_world s) LO G) as C.
    assert (RX : ds_dead (received (the_daemon mtu [] "") now (set_l s f LRead) (CRx f) (VPacket p)) = true <->
      match main_rx now [] "" (ds_world s) p with Ret _ => False | _ => True end).
    { unfold received, main_rx. cbn [note_handled set_l ds_world the_daemon su_handle su_cwd su_sardir].
      destruct (main_rx_gen add_rx_tran now [] "" (ds_world s) p) as [(w & [q|])| |]; cbn; rewrite ?D; split; auto; discriminate. }
    rewrite RX. clear RX. split.
    + intros X. right. exists p. split; [reflexivity|]. destruct (pk_info p) as [b|r|m|dt|st]; auto.
      * destruct C as (ps & rep & _ & C). rewrite C in X. exact X.
      * rewrite C in X. destruct (N.leb_spec (hd_csumtype (m_header m)) 3); [destruct X|lia].
      * rewrite C in X. exact X.
      * rewrite C in X. exact X.
    + intros [X|(q & X & Y)]; [discriminate|]. inversion X; subst q. destruct (pk_info p) as [b|r|m|dt|st]; try (exfalso; exact Y).
      * rewrite C. exact I.
      * rewrite C. destruct (N.leb_spec (hd_csumtype (m_header m)) 3); [lia|exact I].
  - destruct (proj2 (M f p) L) as (now0 & d & from & LO). pose proof (c75_answers_print _ _ _ _ _ LO) as C.
    unfold received. rewrite C. cbn [note_shown set_l ds_dead]. rewrite D. split; [discriminate|]. intros [X|(q & X & _)]; discriminate.
  - cbn. split; auto.
Qed.
Lemma line_dies : forall s line s', y_dead s = false -> ystep s (YLine line) = Some s' ->
  (y_dead s' = true <-> (typed line "exit" \/ typed line "quit") \/ (forall text, ~ typed line text) \/
     exists text, typed line text /\ text <> "" /\ words_of text []).
Proof.
  intros s line s' D H. unfold ystep in H. rewrite D in H. inj H.
  pose proof (c86_exit line) as EX. destruct (c67_enter line) as (A & B). pose proof (split_two_spec line) as S.
  destruct (split_two ":" line) as [|h [|t [|]]]; try (destruct S; fail).
  - rewrite (B S). cbn. split; auto.
  - destruct (one_of t ["exit"; "quit"]) eqn:O.
    + assert (F : get_line line = Fatal) by (now rewrite (A t S), O). rewrite F. cbn. split; [intros _; left; apply EX, F|auto].
    + assert (F : get_line line = do ' (g, l, _) <- run_line t; Ret (g, l)) by (now rewrite (A t S), O).
      pose proof (c67_panics t) as (P1 & P2).
      destruct (run_line t) as [((g & l) & b)| |] eqn:RL; cbn [obind] in F; [|..|congruence].
      * rewrite F. cbn [obind]. replace (y_dead (or_die s _)) with false by (destruct g; cbn; auto). split; [discriminate|]. intros [[X|X]|[X|(t' & X & Y & Z)]].
        -- rewrite (typed_unique _ _ _ S X) in O. discriminate.
        -- rewrite (typed_unique _ _ _ S X) in O. discriminate.
        -- exfalso. exact (X t S).
        -- rewrite (typed_unique _ _ _ X S) in *. discriminate (proj2 P1 (conj Y Z)).
      * rewrite F. cbn. split; [intros _; right; right; exists t; split; [exact S|apply P1; reflexivity]|auto].
Qed.
(** C99: what ends the running program, and nothing else does *)
Lemma c99_ends : forall mtu n l n', runs_to mtu n -> good_nlabel l -> nstep mtu n l = Some n' ->
  (n_dead n' = true <-> ends_program mtu n l).
Proof.
  intros mtu n l n' R G H. pose proof (nok_reach mtu n R) as K. pose proof (nok_table mtu n K) as RT. destruct K as [RN RC P M].
  pose proof (nstep_parts mtu n l n' H) as (D & HD & HY & _). specialize (RT D). pose proof (alive_both n D) as (D1 & D2).
  clear H. destruct n' as [d' c']. unfold n_dead. cbn [n_net n_cli] in *. destruct l as [l|line|E i]; cbn [dlabel clabel n_net n_cli] in HD, HY.
  - assert (Y : y_dead c' = false) by (unfold ystep in HY; rewrite D2 in HY; inj HY; exact D2). rewrite Y, orb_false_r.
    destruct l as [f now d from|f|i j now| | |fs].
    + pose proof (c56_fate now mtu d from) as F. unfold dstep in HD. rewrite D1 in HD. destruct (ds_listener (n_net n) f); try discriminate. inj HD.
      cbn [the_daemon su_mtu]. split.
      * intros X. apply ep_datagram. rewrite <- F. destruct (listen_one now mtu d from) as [[|p|p]| |]; cbn in X; try congruence; reflexivity.
      * intros X. inversion X as [f' now' d' from' FT| | | | | | | |]; subst. rewrite FT in F. destruct (listen_one now mtu d from) as [[|p|p]| |]; try discriminate F; reflexivity.
    + unfold dstep in HD. rewrite D1 in HD. destruct (ds_listener (n_net n) f); try discriminate. inj HD. cbn. rewrite D1. split; [discriminate|]. intros X; inversion X.
    + cbn [good_nlabel good_label] in G. rewrite (meet_dies mtu _ _ _ _ _ RN M G HD). split.
      * intros (f & -> & -> & [L|(p & L & X)]); [apply ep_read_error; exact L|]. destruct p as [a x]. cbn [pk_info] in X. destruct x as [b|r|m|dt|st]; try (exfalso; exact X).
        -- eapply ep_request. exists a. exact L.
        -- eapply ep_metadata; [exists a; exact L|lia].
      * intros X. inversion X as [|f now' r (a & L)|f now' m (a & L) C|f now' L| | | | |]; subst.
        -- exists f. split; [auto|]. split; [auto|]. right. eexists. split; [exact L|exact I].
        -- exists f. split; [auto|]. split; [auto|]. right. eexists. split; [exact L|exact C].
        -- exists f. split; [auto|]. split; [auto|]. left. exact L.
    + unfold dstep in HD. rewrite D1 in HD. inj HD. cbn. rewrite D1. split; [discriminate|]. intros X; inversion X.
    + unfold dstep in HD. rewrite D1 in HD. destruct (ds_main (n_net n)); [|discriminate]. destruct (ds_errflag (n_net n)); [|discriminate]. inj HD. cbn.
      split; [intros _; apply ep_quits|reflexivity].
    + unfold dstep in HD. rewrite D1 in HD. inj HD. cbn. rewrite D1. split; [discriminate|]. intros X; inversion X.
  - assert (Y : ds_dead d' = false) by (unfold dstep in HD; rewrite D1 in HD; inj HD; exact D1). rewrite Y. cbn [orb].
    rewrite (line_dies _ _ _ D2 HY). split.
    + intros [X|[X|(t & X & Y' & Z)]]; [apply ep_exit; auto|apply ep_no_prompt; auto|eapply ep_blank; eauto].
    + intros X. inversion X as [| | | | |l' Z|l' Z|l' t Z1 Z2 Z3|]; subst; auto. right. right. exists t. auto.
  - assert (Y : ds_dead d' = false) by (unfold dstep in HD; rewrite D1 in HD; inj HD; exact D1). rewrite Y. cbn [orb].
    unfold ystep in HY. rewrite D2 in HY. destruct (nth_error (y_tasks (n_cli n)) i) as [t|] eqn:T.
    2:{ unfold task_step in HY. rewrite T in HY. discriminate. }
    rewrite (c95_dies _ _ _ _ _ RC D2 T HY). split.
    + intros X. eapply ep_command; [exact T| |exact X]. intros ->. inversion X as [p I W| | |]; subst.
      pose proof (table_writable _ _ RT) as F. rewrite Forall_forall in F. apply W, F, I.
    + intros X. inversion X as [| | | | | | | |E' i' t' T' _ DL]; subst. unfold task_is in T'. rewrite T in T'. inversion T'; subst. exact DL.
Qed.

(** ** Several nodes *)
Lemma put_same : forall st k n, put st k n k = n.
Proof. intros. unfold put. now rewrite Nat.eqb_refl. Qed.
Lemma put_other : forall st k n j, j <> k -> put st k n j = st j.
Proof. intros st k n j N. unfold put. now rewrite (proj2 (Nat.eqb_neq j k) N). Qed.
Lemma wrun_app : forall N l1 l2 st, wrun N st (l1 ++ l2) = wrun N (wrun N st l1) l2.
Proof. induction l1; intros; cbn [app wrun]; auto. Qed.
(** The label of a step, for the node that makes it *)
Inductive acts (N : network) (st : nodes) : wlabel -> nlabel -> Prop :=
| ac_own : forall k x, is_arrival x = false -> acts N st (WOwn k x) x
| ac_arrive : forall j m k f now from i to d, nth_error (y_sent (n_cli (st j))) m = Some (i, to, d) -> nw_carries N j to k f from = true ->
    acts N st (WArrive j m k f now from) (NNet (Datagram f now d from)).
Lemma wstep_acts : forall N st l st', wstep N st l = Some st' ->
  exists x n', acts N st l x /\ nstep (nw_mtu N (actor l)) (st (actor l)) x = Some n' /\ st' = put st (actor l) n'.
Proof.
  intros N st l st' H. destruct l as [k x|j m k f now from]; cbn [wstep actor] in *.
  - destruct (is_arrival x) eqn:A; [discriminate|]. destruct (nstep (nw_mtu N k) (st k) x) as [n'|] eqn:S; [|discriminate]. inversion H; subst.
    exists x, n'. split; [constructor; exact A|auto].
  - destruct (nth_error (y_sent (n_cli (st j))) m) as [((i & to) & d)|] eqn:Y; [|discriminate]. destruct (nw_carries N j to k f from) eqn:C; [|discriminate].
    destruct (nstep (nw_mtu N k) (st k) (NNet (Datagram f now d from))) as [n'|] eqn:S; [|discriminate]. inversion H; subst.
    eexists. exists n'. split; [econstructor; eauto|auto].
Qed.
Lemma acts_good : forall N st l x, acts N st l x -> good_wlabel l -> good_nlabel x.
Proof. intros N st l x A G. destruct A; exact G. Qed.
Lemma nrun_app : forall mtu l1 l2 n, nrun mtu n (l1 ++ l2) = nrun mtu (nrun mtu n l1) l2.
Proof. induction l1; intros; cbn [app nrun]; auto. Qed.
Lemma wruns_to : forall N fs cwd ls k, good_wlabels ls -> runs_to (nw_mtu N k) (wrun N (wstart fs cwd) ls k).
Proof.
  intros N fs cwd ls k. induction ls as [|l ls IH] using rev_ind; intros G.
  - exists (fs k), (cwd k), []. split; [intros l []|reflexivity].
  - destruct IH as (fs' & cwd' & nls & GN & E); [intros x X; apply G, in_or_app; auto|]. rewrite wrun_app. cbn [wrun].
    destruct (wstep N (wrun N (wstart fs cwd) ls) l) as [st'|] eqn:S; [|exists fs', cwd', nls; auto].
    apply wstep_acts in S as (x & n' & A & S & ->). destruct (Nat.eq_dec k (actor l)) as [->|NE].
    + rewrite put_same. exists fs', cwd', (nls ++ [x])%list. split.
      * intros y Y. apply in_app_or in Y as [Y|[<-|[]]]; auto. eapply acts_good; eauto. apply G, in_or_app. right. left. auto.
      * rewrite nrun_app. cbn [nrun]. rewrite <- E, S. reflexivity.
    + rewrite put_other by auto. exists fs', cwd', nls. auto.
Qed.
(** What a node has read was sent and carried *)
Lemma nstep_read : forall mtu n x n' f, nstep mtu n x = Some n' ->
  ds_read (n_net n') f = match x with NNet (Datagram g _ d from) => if family_eqb f g then (ds_read (n_net n) f ++ [(d, from)])%list else ds_read (n_net n) f | _ => ds_read (n_net n) f end.
Proof.
  intros mtu n x n' f H. apply nstep_parts in H as (_ & H & _). destruct n' as [s' c']. cbn [n_net n_cli dlabel] in *.
  assert (FL : forall fs, dstep (the_daemon mtu [] "") (n_net n) (Files fs) = Some s' -> ds_read s' f = ds_read (n_net n) f).
  { intros fs X. unfold dstep in X. destruct (ds_dead (n_net n)); [discriminate|]. inj X. reflexivity. }
  destruct x as [l|line|E i]; [|eapply FL; exact H..]. cbn [dlabel] in H. destruct l as [g now d from|g|i j now| | |fs].
  - unfold dstep in H. destruct (ds_dead (n_net n)); [discriminate|]. destruct (ds_listener (n_net n) g); try discriminate. inj H.
    assert (X : forall s1, s1 = note_read (n_net n) g (d, from) -> ds_read s1 f = if family_eqb f g then (ds_read (n_net n) f ++ [(d, from)])%list else ds_read (n_net n) f).
    { intros s1 ->. cbn. unfold upd. destruct (family_eqb f g) eqn:FE; [|reflexivity]. apply family_eqb_eq in FE. now subst. }
    destruct (listen_one now (su_mtu _) d from) as [[|p|p]| |]; exact (X _ eq_refl).
  - unfold dstep in H. destruct (ds_dead (n_net n)); [discriminate|]. destruct (ds_listener (n_net n) g); try discriminate. inj H. reflexivity.
  - apply meet_cases in H. destruct H as (_ & _ & _ & g & _ & [(p & L & ->)|[(p & L & ->)|(L & ->)]]); try reflexivity; now rewrite (proj2 (received_fields _ _ _ _ _)).
  - unfold dstep in H. destruct (ds_dead (n_net n)); [discriminate|]. inj H. reflexivity.
  - unfold dstep in H. destruct (ds_dead (n_net n)); [discriminate|]. destruct (ds_main (n_net n)); [|discriminate]. destruct (ds_errflag (n_net n)); [|discriminate]. inj H. reflexivity.
  - eapply FL; exact H.
Qed.
Lemma read_was_sent : forall N fs cwd ls k f d from, In (d, from) (ds_read (n_net (wrun N (wstart fs cwd) ls k)) f) ->
  exists l1 j m now l2 i to, ls = (l1 ++ WArrive j m k f now from :: l2)%list /\
    nth_error (y_sent (n_cli (wrun N (wstart fs cwd) l1 j))) m = Some (i, to, d) /\ nw_carries N j to k f from = true.
Proof.
  intros N fs cwd ls k f d from. induction ls as [|l ls IH] using rev_ind; intros I; [destruct I|].
  assert (EX : In (d, from) (ds_read (n_net (wrun N (wstart fs cwd) ls k)) f) -> exists l1 j m now l2 i to, (ls ++ [l])%list = (l1 ++ WArrive j m k f now from :: l2)%list /\
    nth_error (y_sent (n_cli (wrun N (wstart fs cwd) l1 j))) m = Some (i, to, d) /\ nw_carries N j to k f from = true).
  { intros X. destruct (IH X) as (l1 & j & m & now & l2 & i & to & -> & R). exists l1, j, m, now, (l2 ++ [l])%list, i, to. rewrite <- app_assoc. split; [reflexivity|exact R]. }
  rewrite wrun_app in I. cbn [wrun] in I. destruct (wstep N (wrun N (wstart fs cwd) ls) l) as [st'|] eqn:S; [|auto].
  apply wstep_acts in S as (x & n' & A & S & ->). destruct (Nat.eq_dec k (actor l)) as [->|NE]; [|rewrite put_other in I by auto; auto].
  rewrite put_same, (nstep_read _ _ _ _ f S) in I. destruct A as [k x AX|j m k g now from' i to d' Y C]; cbn [actor] in *.
  - destruct x as [[]| |]; try discriminate AX; auto.
  - destruct (family_eqb f g) eqn:FE; [|auto]. apply family_eqb_eq in FE. subst g. apply in_app_or in I as [I|[I|[]]]; [auto|]. inversion I; subst.
    exists ls, j, m, now, [], i, to. auto.
Qed.
(** The command line of a node makes a run of its own, and what comes earlier there comes
    earlier *)
Lemma wproj : forall N fs cwd ls k, exists yls, n_cli (wrun N (wstart fs cwd) ls k) = yrun (ystart (fs k) (cwd k) []) yls /\
  forall y1 y2, yls = (y1 ++ y2)%list -> exists l1 l2, ls = (l1 ++ l2)%list /\ n_cli (wrun N (wstart fs cwd) l1 k) = yrun (ystart (fs k) (cwd k) []) y1 /\
    forall E i, In (YStep E i) y2 -> In (WOwn k (NStep E i)) l2.
Proof.
  intros N fs cwd ls k. induction ls as [|l ls IH] using rev_ind.
  - exists []. split; [reflexivity|]. intros y1 y2 X. symmetry in X. apply app_eq_nil in X as (-> & ->). exists [], []. split; [reflexivity|]. split; [reflexivity|intros E i []].
  - destruct IH as (yls & R & P).
    assert (EX : n_cli (wrun N (wstart fs cwd) (ls ++ [l]) k) = n_cli (wrun N (wstart fs cwd) ls k) -> exists yls, n_cli (wrun N (wstart fs cwd) (ls ++ [l]) k) = yrun (ystart (fs k) (cwd k) []) yls /\
      forall y1 y2, yls = (y1 ++ y2)%list -> exists l1 l2, (ls ++ [l])%list = (l1 ++ l2)%list /\ n_cli (wrun N (wstart fs cwd) l1 k) = yrun (ystart (fs k) (cwd k) []) y1 /\
      forall E i, In (YStep E i) y2 -> In (WOwn k (NStep E i)) l2).
    { intros X. exists yls. split; [congruence|]. intros y1 y2 Y. destruct (P y1 y2 Y) as (l1 & l2 & -> & A & B). exists l1, (l2 ++ [l])%list. rewrite <- app_assoc.
      split; [reflexivity|]. split; [exact A|]. intros E i J. apply in_or_app. left. auto. }
    revert EX. rewrite wrun_app. cbn [wrun]. destruct (wstep N (wrun N (wstart fs cwd) ls) l) as [st'|] eqn:S; [|intros EX; apply EX; reflexivity].
    apply wstep_acts in S as (x & n' & A & S & ->). destruct (Nat.eq_dec k (actor l)) as [K|NE]; [|rewrite put_other by auto; intros EX; apply EX; reflexivity].
    intros _. rewrite K, put_same, <- K in *. pose proof (nstep_parts _ _ _ _ S) as (_ & _ & Y & _).
    assert (R' : n_cli n' = yrun (ystart (fs k) (cwd k) []) (yls ++ [clabel x n'])) by (symmetry; apply yrun_snoc; rewrite <- R; exact Y).
    exists (yls ++ [clabel x n'])%list. split; [exact R'|]. intros y1 y2 Z.
    destruct y2 as [|y y2 _] using rev_ind.
    + rewrite app_nil_r in Z. subst y1. exists (ls ++ [l])%list, []. split; [now rewrite app_nil_r|]. split; [|intros E i []].
      rewrite wrun_app. cbn [wrun]. destruct (wstep N (wrun N (wstart fs cwd) ls) l) as [st2|] eqn:S2.
      * apply wstep_acts in S2 as (x2 & n2 & A2 & S2 & ->). rewrite K, put_same, <- K in *. 
        assert (x2 = x). { destruct A; inversion A2; subst; [reflexivity|]. congruence. }
        subst x2. rewrite S in S2. inversion S2; subst n2. exact R'.
      * exfalso. clear - A S S2 K. destruct A as [k' x AX|j m k' g now from' i to d' Y C]; cbn [wstep actor] in *; subst k'.
        -- rewrite AX, S in S2. discriminate.
        -- rewrite Y, C, S in S2. discriminate.
    + rewrite app_assoc in Z. apply app_inj_tail in Z as (Z & <-). destruct (P y1 y2 Z) as (l1 & l2 & -> & A1 & A2). exists l1, (l2 ++ [l])%list. rewrite <- app_assoc.
      split; [reflexivity|]. split; [exact A1|]. intros E i J. apply in_or_app. apply in_app_or in J as [J|[J|[]]]; [left; auto|right; left].
      destruct x; cbn [clabel] in J; inversion J; subst. inversion A; subst; reflexivity.
Qed.
(** Everything that is ever sent is a beacon *)
Lemma sent_beacon : forall N fs cwd ls j m i to d, nth_error (y_sent (n_cli (wrun N (wstart fs cwd) ls j))) m = Some (i, to, d) ->
  exists l1 l2 args E text, ls = (l1 ++ l2)%list /\ let s := n_cli (wrun N (wstart fs cwd) l1 j) in
    task_is s i (TStart ("beacon" :: args)) /\ In text (beacon_targets (y_cli s) args) /\ address (ce_resolve E) text = Some to /\
    beacon_of E to (y_cli s) d /\ In (WOwn j (NStep E i)) l2 /\ SpecRun.reachable s.
Proof.
  intros N fs cwd ls j m i to d H. apply nth_error_In in H. destruct (wproj N fs cwd ls j) as (yls & R & P). rewrite R in H.
  destruct (c91_only _ _ _ _ _ _ _ H) as (y1 & E0 & y2 & args & s' & E & text & Y & T & _ & IE & TG & AD & BO).
  destruct (P y1 (YStep E0 i :: y2) Y) as (l1 & l2 & L & A & B). exists l1, l2, args, E, text. split; [exact L|]. cbv zeta. rewrite A.
  split; [exact T|]. split; [exact TG|]. split; [exact AD|]. split; [exact BO|]. split; [apply B; right; exact IE|]. exists (fs j), (cwd j), [], y1. reflexivity.
Qed.
Lemma flag_value : forall h f v fl n, reads sar h f v -> lookup f (t_flags sar) = Some fl -> lookup v (f_opts fl) = Some n -> bit_field 32 (f_msb fl) (f_len fl) h = n.
Proof. intros h f v fl n (fl' & n' & A & B & C) X Y. rewrite X in A. inversion A; subst fl'. rewrite Y in B. now inversion B. Qed.
(** A datagram that holds a beacon is ignored if it does not fit, and otherwise handed on
    with everything it says *)
Lemma beacon_fate : forall E to c d mtu, beacon_of E to c d ->
  exists local h w n, ce_dial E to = Some local /\ space_width h = Some w /\
    (datagram_fate mtu d = Ignored \/ datagram_fate mtu d = HandedOn) /\ (fits_mtu mtu d -> datagram_fate mtu d = HandedOn) /\
    frame_in d = Some (FBeacon {| b_header := h; b_freespace := n; b_eid := local ++ "-" ++ itoa (ce_pid E) |}) /\
    (forall k v, In k ["descriptor"; "stream"; "txwilling"; "rxwilling"; "udplite"] -> value c (Flag k) = KText v -> reads sar h k v) /\
    (reads sar h "freespace" "no" -> n = 0) /\
    (value c (Flag "freespace") = KText "no" -> reads sar h "freespace" "no") /\
    (value c (Flag "freespace") = KText "yes" ->
       match free_space (ce_sys E) 0 with
       | Some space => n = space /\ reads sar h "freespace" "yes"
       | None => reads sar h "freespace" "no"
       end).
Proof.
  intros E to c d mtu (local & h & w & n & DI & -> & HB & SW & NB & RV & RF & RS & FN & FY).
  set (eid := local ++ "-" ++ itoa (ce_pid E)). set (f := beacon_wire h w n eid).
  assert (N0 : number_at f 0 4 = h) by (unfold f, beacon_wire; rewrite number_at_wire0; apply u32_pow; auto).
  assert (N4 : number_at f 4 w = n).
  { unfold f, beacon_wire. rewrite number_at_wire by (rewrite wire_length; auto). apply mod_pow_small; auto. }
  assert (SK : skipn (4 + w) f = bytes_of eid).
  { unfold f, beacon_wire. rewrite app_assoc. apply skipn_app_exact. rewrite app_length, !wire_length. reflexivity. }
  assert (LF : length f = (4 + w + slen eid)%nat).
  { unfold f, beacon_wire. rewrite !app_length, !wire_length, bytes_of_length. lia. }
  assert (V : beacon_verdict f = Accept).
  { unfold beacon_verdict. rewrite N0, SW.
    replace (length f <? 4)%nat with false by (symmetry; apply Nat.ltb_ge; lia).
    replace (length f <? 4 + w)%nat with false by (symmetry; apply Nat.ltb_ge; lia). reflexivity. }
  assert (HV : hd_version h = 1) by (exact (flag_value h "version" "v1" _ 1 RV eq_refl eq_refl)).
  assert (HF : hd_frametype h = 0) by (exact (flag_value h "frametype" "beacon" _ 0 RF eq_refl eq_refl)).
  assert (DF : datagram_fate mtu f = if fits_mtu_b mtu f then HandedOn else Ignored) by (unfold datagram_fate; rewrite N0, HV, HF, V; reflexivity).
  exists local, h, w, n. split; [exact DI|]. split; [exact SW|]. split; [rewrite DF; destruct (fits_mtu_b mtu f); auto|].
  split; [intros X; apply fits_mtu_iff in X; rewrite DF, X; reflexivity|].
  split. { unfold frame_in. rewrite N0, HF, SW, N4, SK, string_of_bytes_of. reflexivity. }
  split; [exact RS|]. split; [|split; [exact FN|exact FY]].
  intros X. assert (HS : hd_freespace h = 0) by (exact (flag_value h "freespace" "no" _ 0 X eq_refl eq_refl)).
  unfold space_width in SW. rewrite HS in SW. change (0 =? 0) with true in SW. cbv iota in SW. inversion SW; subst w. cbn in NB. lia.
Qed.

(** ** C100 *)
(** C100: nodes that hear only each other do not end each other, whatever the network loses,
    delays, repeats or swaps: a node ends only by what its own user types and runs, or because its own
    socket fails or its user quits *)
Lemma c100_peace : forall N fs cwd ls l st' k, good_wlabels ls -> good_wlabel l -> let st := wrun N (wstart fs cwd) ls in
  wstep N st l = Some st' -> n_dead (st k) = false -> n_dead (st' k) = true ->
  exists x, l = WOwn k x /\ by_itself (st k) x /\ ends_program (nw_mtu N k) (st k) x.
Proof.
  intros N fs cwd ls l st' k GS GL st S D D'. apply wstep_acts in S as (x & n' & A & S & ->).
  destruct (Nat.eq_dec k (actor l)) as [K|NE]; [|rewrite put_other in D' by auto; congruence]. rewrite K, put_same, <- K in *.
  pose proof (wruns_to N fs cwd ls k GS) as R. fold st in R.
  pose proof (proj1 (c99_ends _ _ _ _ R (acts_good _ _ _ _ A GL) S) D') as EP.
  assert (HF : forall f y, hands_over (st k) f y -> exists b, y = FBeacon b).
  { intros f y (a & L). pose proof (nk_net _ _ (nok_reach _ _ R)) as (fs0 & dls & _ & RD).
    pose proof (c60_order _ _ (ex_intro _ fs0 (ex_intro _ dls RD)) f) as O. unfold waiting_rx in O. rewrite L in O.
    assert (I : In {| pk_addr := a; pk_info := y |} (frames_in (nw_mtu N k) (ds_read (n_net (st k)) f))).
    { cbn [the_daemon su_mtu] in O. rewrite <- O. apply in_or_app. right. left. reflexivity. }
    unfold frames_in in I. apply in_flat_map in I as ((d & from) & I & J). cbn [fst snd] in J.
    destruct (read_was_sent _ _ _ _ _ _ _ _ I) as (l1 & j & m & now & l2 & i & to & _ & Y & _).
    destruct (sent_beacon _ _ _ _ _ _ _ _ _ Y) as (l1' & l2' & args & E & text & _ & _ & _ & _ & BO & _).
    destruct (beacon_fate _ _ _ _ (nw_mtu N k) BO) as (local & h & w & n & _ & _ & _ & _ & FI & _).
    rewrite FI in J. destruct (datagram_fate (nw_mtu N k) d); try destruct J. inversion H; subst. eauto. destruct H. }
  destruct A as [k' x AX|j m k' f now from i to d Y C]; cbn [actor] in *; subst k'.
  - exists x. split; [reflexivity|]. split; [|exact EP]. destruct EP as [f now d from X|f now r X|f now m X _|f now X| |line X|line X|line t X1 X2 X3|E i t X1 X2 X3]; cbn [by_itself]; auto.
    + discriminate AX.
    + destruct (HF _ _ X) as (b & Z). discriminate.
    + destruct (HF _ _ X) as (b & Z). discriminate.
  - exfalso. destruct (sent_beacon _ _ _ _ _ _ _ _ _ Y) as (l1' & l2' & args & E & text & _ & _ & _ & _ & BO & _).
    destruct (beacon_fate _ _ _ _ (nw_mtu N k) BO) as (local & h & w & n & _ & _ & FT & _).
    inversion EP as [f' now' d' from' Z| | | | | | | |]; subst. destruct FT; congruence.
Qed.

(** ** C101 *)
Lemma reads_same : forall h f v v' fl, reads sar h f v -> reads sar h f v' -> lookup f (t_flags sar) = Some fl -> NoDup (map snd (f_opts fl)) -> v = v'.
Proof.
  intros h f v v' fl (f1 & n1 & A1 & B1 & C1) (f2 & n2 & A2 & B2 & C2) L ND. rewrite L in A1, A2. inversion A1; inversion A2; subst f1 f2. rewrite C1 in C2. subst n2.
  clear - B1 B2 ND. induction (f_opts fl) as [|(k & n) l IH]; [discriminate|]. cbn [map snd] in ND. inversion ND as [|x y NI ND']; subst. cbn [lookup] in B1, B2.
  assert (IN : forall a, lookup a l = Some n -> In n (map snd l)) by (intros a X; apply lookup_In in X; apply in_map_iff; exists (a, n); auto).
  destruct (String.eqb_spec v k), (String.eqb_spec v' k); subst; auto.
  - inversion B1; subst. exfalso. apply NI. eapply IN; eauto.
  - inversion B2; subst. exfalso. apply NI. eapply IN; eauto.
Qed.
Lemma told_by : forall E to c d p b, beacon_of E to c d -> frame_in d = Some (FBeacon b) -> shows p b ->
  keys (cl_global c) = keys (cl_global sar_cli) -> almost_valid c -> told E to c p.
Proof.
  intros E to c d p b BO FI (S1 & S2 & S3 & S4 & S5) K V.
  destruct (beacon_fate _ _ _ _ 0%Z BO) as (local & h & w & n & DI & _ & _ & _ & FI' & RS & F0 & FN & FY). rewrite FI in FI'. inversion FI'; subst b. clear FI'.
  cbn [b_freespace b_eid b_header] in *.
  assert (VL : forall k, In k (keys (cl_global sar_cli)) -> exists v, value c (Flag k) = KText v).
  { intros k I. rewrite <- K in I. apply In_keys_lookup in I as (v & I). exists v. cbn. now rewrite I. }
  assert (ND : forall k fl, In k ["rxwilling"; "txwilling"; "descriptor"] -> lookup k (t_flags sar) = Some fl -> NoDup (map snd (f_opts fl))).
  { intros k fl I L. repeat (destruct I as [<-|I]; [vm_compute in L; inversion L; subst fl; vm_compute; repeat constructor; cbn; intuition discriminate|]). destruct I. }
  assert (RD : forall k v, In k ["rxwilling"; "txwilling"; "descriptor"] -> reads sar h k v -> value c (Flag k) = KText v).
  { intros k v I R. destruct (VL k) as (v' & X); [repeat (destruct I as [<-|I]; [vm_compute; auto 20|]); destruct I|].
    rewrite X. f_equal. pose proof R as (fl & n0 & L & _).
    eapply (reads_same h k v' v fl); [|exact R|exact L|eapply ND; eauto]. apply RS; [|exact X]. cbn in *. intuition. }
  split; [exists local; auto|]. split; [apply RD; cbn; auto|]. split; [apply RD; cbn; auto|]. split; [apply RD; cbn; auto|].
  rewrite S1. destruct (VL "freespace") as (v & X); [vm_compute; auto 20|]. destruct (V _ _ X) as [(n0 & fl & L & O)|(Y & _)]; [|discriminate].
  cbn [fst snd] in L, O. vm_compute in L. inversion L; subst fl. clear L. cbn [f_opts lookup] in O.
  assert (Y : v = "no" \/ v = "yes").
  { destruct (String.eqb_spec v "no"); [auto|]. destruct (String.eqb_spec v "yes"); [auto|discriminate]. }
  rewrite X in *. destruct Y as [-> | ->]; [apply F0, FN; reflexivity|]. specialize (FY eq_refl).
  destruct (free_space (ce_sys E) 0); [apply FY|apply F0, FY].
Qed.
(** C101: every entry in the table of a live node was told by another: it says what the
    settings of the sender said when its user gave a beacon command, and its address is the
    one the network gave to the datagram *)
Lemma c101_told : forall N fs cwd ls k p, good_wlabels ls -> let at_ l j := wrun N (wstart fs cwd) l j in
  n_dead (at_ ls k) = false -> In p (y_peers (n_cli (at_ ls k))) ->
  exists l1 l2 l3 j i args E text to m f now from,
    ls = (l1 ++ l2 ++ WArrive j m k f now from :: l3)%list /\
    task_is (n_cli (at_ l1 j)) i (TStart ("beacon" :: args)) /\
    In (WOwn j (NStep E i)) l2 /\
    In text (beacon_targets (y_cli (n_cli (at_ l1 j))) args) /\ address (ce_resolve E) text = Some to /\
    nw_carries N j to k f from = true /\
    p_addr p = ua_ip from /\ told E to (y_cli (n_cli (at_ l1 j))) p.
Proof.
  intros N fs cwd ls k p G at_ D I. unfold at_ in *. pose proof (wruns_to N fs cwd ls k G) as R. pose proof (nok_reach _ _ R) as K.
  destruct (nok_table _ _ K D) as (_ & _ & RE). destruct (RE p I) as (lt & rest & c & SE & SH & _). destruct (nk_net _ _ K) as (fs0 & dls & _ & RD).
  assert (IL : In lt (heard_by (wrun N (wstart fs cwd) ls k)) /\ sg_from lt = Some (p_addr p)).
  { assert (X : In lt (seen (p_addr p) (heard_by (wrun N (wstart fs cwd) ls k)))) by (rewrite SE; left; auto).
    unfold seen in X. apply in_rev in X. apply filter_In in X as (X & Y). split; [exact X|]. unfold is_from in Y. destruct (sg_from lt); [|discriminate]. apply String.eqb_eq in Y. now subst. }
  destruct IL as (IL & FR). unfold heard_by, beacons_of in IL. apply in_flat_map in IL as (((f & now0) & pk) & IH & IL). cbn [fst snd] in IL.
  destruct (pk_info pk) as [b| | | |] eqn:PI; [|destruct IL..]. destruct IL as [<-|[]]. cbn [sg_from sg_beacon] in *.
  pose proof (c60_order _ _ (ex_intro _ fs0 (ex_intro _ dls RD)) f) as O. cbn [the_daemon su_mtu] in O.
  assert (J : In pk (frames_in (nw_mtu N k) (ds_read (n_net (wrun N (wstart fs cwd) ls k)) f))).
  { rewrite <- O. apply in_or_app. left. unfold handled_of. apply in_map_iff. exists (f, now0, pk). split; [reflexivity|]. apply filter_In. split; [exact IH|]. apply family_eqb_refl. }
  unfold frames_in in J. apply in_flat_map in J as ((d & from) & I2 & J). cbn [fst snd] in J.
  destruct (datagram_fate (nw_mtu N k) d); try (exfalso; exact J). destruct (frame_in d) as [x|] eqn:FI; [|destruct J]. destruct J as [<-|[]]. cbn [pk_addr pk_info] in *. subst x.
  destruct (read_was_sent _ _ _ _ _ _ _ _ I2) as (la & j & m & now & l3 & i & to & L & Y & C).
  destruct (sent_beacon _ _ _ _ _ _ _ _ _ Y) as (l1 & l2 & args & E & text & L2 & T & TG & AD & BO & IE & RC).
  exists l1, l2, l3, j, i, args, E, text, to, m, f, now, from. split; [rewrite L, L2, <- app_assoc; reflexivity|]. split; [exact T|]. split; [exact IE|].
  split; [exact TG|]. split; [exact AD|]. split; [exact C|]. split; [now inversion FR|]. pose proof (reachable_inv _ RC) as [IK _ _ _ _ _].
  eapply told_by; eauto. apply reachable_almost. exact RC.
Qed.
(** C101: a beacon that the network carries, that fits and that finds the listener idle is
    in the table as soon as main has taken it *)
Lemma c101_heard : forall N fs cwd ls k j m i to d f now from now', good_wlabels ls -> good_now now -> good_now now' ->
  let at_ l j := wrun N (wstart fs cwd) l j in
  nth_error (y_sent (n_cli (at_ ls j))) m = Some (i, to, d) -> nw_carries N j to k f from = true -> fits_mtu (nw_mtu N k) d ->
  n_dead (at_ ls k) = false -> ds_listener (n_net (at_ ls k)) f = LRead ->
  let ls' := (ls ++ [WArrive j m k f now from; WOwn k (NNet (Meet (GListen f) GMain now'))])%list in
  n_dead (at_ ls' k) = false /\
  exists p l1 l2 args E, In p (y_peers (n_cli (at_ ls' k))) /\ p_addr p = ua_ip from /\
    ls = (l1 ++ l2)%list /\ task_is (n_cli (at_ l1 j)) i (TStart ("beacon" :: args)) /\ In (WOwn j (NStep E i)) l2 /\
    told E to (y_cli (n_cli (at_ l1 j))) p.
Proof.
  intros N fs cwd ls k j m i to d f now from now' GS G1 G2 at_ Y C FT D L ls'. unfold at_ in *.
  destruct (sent_beacon _ _ _ _ _ _ _ _ _ Y) as (l1 & l2 & args & E & text & L2 & T & TG & AD & BO & IE & RC).
  pose proof (wruns_to N fs cwd ls k GS) as R. set (st := wrun N (wstart fs cwd) ls) in *. pose proof (nok_reach _ _ R) as K.
  destruct (beacon_fate _ _ _ _ (nw_mtu N k) BO) as (local & h & w & n & _ & _ & _ & FH & FI & _). specialize (FH FT).
  set (b := {| b_header := h; b_freespace := n; b_eid := local ++ "-" ++ itoa (ce_pid E) |}) in *.
  pose proof (listen_spec now (nw_mtu N k) d from) as LS. rewrite FH in LS. destruct LS as (x & LO & FI'). rewrite FI in FI'. inversion FI'; subst x. clear FI'.
  set (pk := {| pk_addr := from; pk_info := FBeacon b |}) in *. pose proof (alive_both _ D) as (D1 & D2).
  (* the datagram *)
  assert (S1 : exists n1, nstep (nw_mtu N k) (st k) (NNet (Datagram f now d from)) = Some n1 /\ n_dead n1 = false /\ ds_listener (n_net n1) f = LRx pk /\
     ds_handled (n_net n1) = ds_handled (n_net (st k))).
  { unfold nstep. rewrite D. unfold dstep. rewrite D1, L. cbn [node_setup the_daemon su_mtu]. rewrite LO. eexists. split; [reflexivity|].
    unfold n_dead. cbn. rewrite D1, D2, upd_same. repeat split. }
  destruct S1 as (n1 & S1 & DN1 & L1 & H1).
  assert (W1 : wstep N st (WArrive j m k f now from) = Some (put st k n1)) by (cbn [wstep]; rewrite Y, C, S1; reflexivity).
  assert (RU1 : wrun N (wstart fs cwd) (ls ++ [WArrive j m k f now from]) = put st k n1) by (rewrite wrun_app; cbn [wrun]; fold st; now rewrite W1).
  assert (GS1 : good_wlabels (ls ++ [WArrive j m k f now from])) by (intros y Q; apply in_app_or in Q as [Q|[<-|[]]]; [auto|exact G1]).
  pose proof (wruns_to N fs cwd _ k GS1) as R1. rewrite RU1, put_same in R1. pose proof (nok_reach _ _ R1) as K1. pose proof (alive_both _ DN1) as (D1' & D2').
  (* main takes it *)
  destruct (nk_net _ _ K1) as (fs0 & dls & GD & RD). pose proof (alive_reach _ _ _ _ (ex_intro _ fs0 (ex_intro _ dls RD))) as (MS & _ & _).
  destruct (c60_can_take (the_daemon (nw_mtu N k) [] "") (n_net n1) f pk now' D1' MS (or_introl L1)) as (s2 & S2 & _).
  assert (NS2 : exists n2, nstep (nw_mtu N k) n1 (NNet (Meet (GListen f) GMain now')) = Some n2 /\ n_net n2 = s2).
  { unfold nstep. rewrite DN1. unfold node_setup. rewrite dstep_any, S2. eexists. split; reflexivity. }
  destruct NS2 as (n2 & NS2 & N2).
  assert (W2 : wstep N (put st k n1) (WOwn k (NNet (Meet (GListen f) GMain now'))) = Some (put (put st k n1) k n2)) by (cbn [wstep is_arrival]; rewrite put_same, NS2; reflexivity).
  assert (RU2 : wrun N (wstart fs cwd) ls' = put (put st k n1) k n2).
  { unfold ls'. change [WArrive j m k f now from; WOwn k (NNet (Meet (GListen f) GMain now'))] with ([WArrive j m k f now from] ++ [WOwn k (NNet (Meet (GListen f) GMain now'))])%list.
    rewrite app_assoc, wrun_app, RU1. cbn [wrun]. now rewrite W2. }
  assert (GS2 : good_wlabels ls') by (intros y Q; apply in_app_or in Q as [Q|[<-|[<-|[]]]]; [auto|exact G1|exact G2]).
  pose proof (wruns_to N fs cwd _ k GS2) as R2. rewrite RU2, put_same in *.
  assert (DN2 : n_dead n2 = false).
  { destruct (n_dead n2) eqn:DD; [exfalso|reflexivity]. pose proof (proj1 (c99_ends _ _ (NNet (Meet (GListen f) GMain now')) _ R1 G2 NS2) DD) as EP.
    inversion EP as [|f' w' r (a & X)|f' w' q (a & X) CS|f' w' X| | | | |]; subst; rewrite L1 in X; discriminate. }
  split; [exact DN2|].
  assert (HB : heard_by n2 = (heard_by (st k) ++ [{| sg_now := now'; sg_beacon := b; sg_from := Some (ua_ip from) |}])%list).
  { unfold heard_by. apply meet_cases in S2 as (_ & _ & _ & g & GG & [(p & LL & S2)|[(p & LL & S2)|(LL & S2)]]); inversion GG; subst g; rewrite L1 in LL; inversion LL; subst p.
    rewrite N2, S2, (proj1 (received_rx _ _ _ _ _)). cbn [set_l ds_handled]. rewrite H1. unfold beacons_of. rewrite flat_map_app. reflexivity. }
  destruct (nok_table _ _ (nok_reach _ _ R2) DN2) as (_ & AA & RE).
  assert (IP : In (ua_ip from) (map p_addr (y_peers (n_cli n2)))) by (apply AA; exists {| sg_now := now'; sg_beacon := b; sg_from := Some (ua_ip from) |}; split; [rewrite HB; apply in_or_app; right; left; reflexivity|reflexivity]).
  apply in_map_iff in IP as (p & PA & IP); exists p, l1, l2, args, E; split; [exact IP|]; split; [exact PA|]; split; [exact L2|]; split; [exact T|]; split; [exact IE|].
  destruct (RE p IP) as (lt & rest & c & SE & SH & _); rewrite PA, HB in SE; unfold seen in SE; rewrite filter_app in SE; cbn [filter is_from sg_from] in SE;
    rewrite String.eqb_refl, rev_app_distr in SE; cbn [rev app] in SE; inversion SE; subst lt; cbn [sg_beacon] in SH.
  pose proof (reachable_inv _ RC) as [IK _ _ _ _ _]; eapply told_by; eauto; apply reachable_almost; exact RC.
Qed.

(** ** Examples *)

(** Two nodes: the datagrams of the first reach the second as from 10.0.0.1 *)
Definition ex_lan : network :=
  {| nw_mtu := fun _ => 1500%Z;
     nw_carries := fun j to k f from => Nat.eqb j 0 && Nat.eqb k 1 && family_eqb f V4 && String.eqb (ua_ip from) "10.0.0.1" |}.
Definition ex_sends : list wlabel :=
  (WOwn 0 (NLine "s[1]:beacon 10.0.0.2") :: repeat (WOwn 0 (NStep ex_cenv 0)) 3)%list.
Definition ex_hears : list wlabel :=
  (ex_sends ++ [WArrive 0 0 1 V4 ex_now ex_from; WOwn 1 (NNet (Meet (GListen V4) GMain ex_now)); WOwn 1 (NLine "s[1]:peers")])%list.
Definition ex_lan_at (ls : list wlabel) (k : nat) : node := wrun ex_lan (wstart (fun _ => ex_tree) (fun _ => [])) ls k.
Lemma ex_hears_good : good_wlabels ex_hears.
Proof.
  intros l I. unfold ex_hears, ex_sends in I. cbn [app repeat In] in I. decompose [or] I; try contradiction; subst l; cbn; try exact Logic.I; unfold good_now, ex_now; cbn; lia.
Qed.
Definition ex_run_node : list nlabel :=
  [NNet (Datagram V4 ex_now ex_beacon_dgram ex_from); NLine "s[1]:peers"; NNet (Meet (GListen V4) GMain ex_now); NNet (Datagram V4 ex_now (ex_req_dgram 1 "f") ex_from)].
Definition ex_node_now : node := nrun 1500 (nstart ex_tree []) ex_run_node.
Lemma ex_node_runs : runs_to 1500 ex_node_now.
Proof.
  exists ex_tree, [], ex_run_node. split; [|reflexivity].
  intros l I. unfold ex_run_node in I. cbn [In] in I. decompose [or] I; try contradiction; subst l; cbn; try exact Logic.I; unfold good_now, ex_now; cbn; lia.
Qed.
(** A beacon has been heard; the command shows one peer *)
Example c98_peers_ex : runs_to 1500 ex_node_now /\ n_dead ex_node_now = false /\ task_is (n_cli ex_node_now) 0 (TStart ["peers"]) /\
  map sg_from (heard_by ex_node_now) = [Some "10.0.0.1"] /\
  option_map (fun n => map (fun s => match s with Peers ps => map p_addr ps | _ => [] end) (y_shown (n_cli n))) (nstep 1500 ex_node_now (NStep ex_cenv 0)) = Some [["10.0.0.1"]].
Proof. split; [exact ex_node_runs|]. split; [vm_compute; reflexivity|]. split; [vm_compute; reflexivity|]. split; vm_compute; reflexivity. Qed.
(** A request has been read: taking it ends the program, the peers command does not, a
    blank line does *)
Example c99_ends_ex : runs_to 1500 ex_node_now /\
  option_map n_dead (nstep 1500 ex_node_now (NNet (Meet (GListen V4) GMain ex_now))) = Some true /\
  option_map n_dead (nstep 1500 ex_node_now (NStep ex_cenv 0)) = Some false /\
  option_map n_dead (nstep 1500 ex_node_now (NLine "s[2]:  ")) = Some true /\
  option_map n_dead (nstep 1500 ex_node_now (NLine "s[2]:beacon v4")) = Some false.
Proof. split; [exact ex_node_runs|]. repeat split; vm_compute; reflexivity. Qed.
(** The second node hears the first and lives; it ends when its user says so *)
Example c100_peace_ex : good_wlabels ex_hears /\ n_dead (ex_lan_at ex_hears 1) = false /\
  n_dead (ex_lan_at (ex_hears ++ [WOwn 1 (NLine "s[2]:exit")]) 1) = true /\ n_dead (ex_lan_at (ex_hears ++ [WOwn 1 (NLine "s[2]:exit")]) 0) = false.
Proof. split; [exact ex_hears_good|]. repeat split; vm_compute; reflexivity. Qed.
(** The second node has the first in its table *)
Example c101_told_ex : good_wlabels ex_hears /\ n_dead (ex_lan_at ex_hears 1) = false /\
  map (fun p => (p_addr p, p_eid p, p_freespace p, p_canrx p)) (y_peers (n_cli (ex_lan_at ex_hears 1))) = [("10.0.0.1", "10.0.0.1:4000-77", 4000, "yes")].
Proof. split; [exact ex_hears_good|]. repeat split; vm_compute; reflexivity. Qed.
Example c101_heard_ex : (exists d, nth_error (y_sent (n_cli (ex_lan_at ex_sends 0))) 0 = Some (0%nat, {| ua_ip := "10.0.0.2:7542"; ua_port := 7542; ua_zone := "" |}, d) /\ fits_mtu 1500 d) /\
  nw_carries ex_lan 0 {| ua_ip := "10.0.0.2:7542"; ua_port := 7542; ua_zone := "" |} 1 V4 ex_from = true /\
  n_dead (ex_lan_at ex_sends 1) = false /\ ds_listener (n_net (ex_lan_at ex_sends 1)) V4 = LRead.
Proof.
  split; [eexists; split; [vm_compute; reflexivity|apply fits_mtu_iff; vm_compute; reflexivity]|]. repeat split; vm_compute; reflexivity.
Qed.
