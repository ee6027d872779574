From Verif Require Import GoBase GoFacts Flags Config Shipped SpecFlags FlagsFacts ConfigFacts FlagsMain SpecWire SarFacts Timestamp SpecTime TimeMain Holes Data SpecFrames FrameFacts BuildFacts DataMain Status SpecStatus StatusMain Request SpecRequest RequestMain Beacon SpecBeacon BeaconMain Peers SpecPeers PeersMain Fileio SpecFileio FileioMain Dirent SpecDirent DirentMain Metadata SpecMetadata MetadataMain Trans Listen SpecListen ListenMain TransMain Daemon SpecDaemon.
Local Open Scope string_scope.
Local Open Scope N_scope.

(** ** Runs and invariants *)
Lemma run_inv : forall su (P : dstate -> Prop), (forall s l s', P s -> dstep su s l = Some s' -> P s') ->
  forall ls s, P s -> P (drun su s ls).
Proof.
  intros su P H. induction ls as [|l ls IH]; intros s Ps; [exact Ps|]. cbn [drun]. apply IH.
  destruct (dstep su s l) eqn:E; eauto.
Qed.
Lemma run_inv_good : forall su (P : dstate -> Prop), (forall s l s', good_label l -> P s -> dstep su s l = Some s' -> P s') ->
  forall ls s, (forall l, In l ls -> good_label l) -> P s -> P (drun su s ls).
Proof.
  intros su P H. induction ls as [|l ls IH]; intros s G Ps; [exact Ps|]. cbn [drun]. apply IH; [intros; apply G; right; auto|].
  destruct (dstep su s l) eqn:E; eauto. eapply H; eauto. apply G. left; auto.
Qed.
Lemma reach_inv : forall su (P : dstate -> Prop), (forall fs, P (start fs)) ->
  (forall s l s', P s -> dstep su s l = Some s' -> P s') -> forall s, reachable su s -> P s.
Proof. intros su P B H s (fs & ls & ->). apply run_inv; auto. Qed.
Lemma reachable_start : forall su fs, reachable su (start fs).
Proof. intros su fs. exists fs, []. reflexivity. Qed.
Lemma drun_app : forall su ls1 ls2 s, drun su s (ls1 ++ ls2) = drun su (drun su s ls1) ls2.
Proof. induction ls1; intros; cbn [app drun]; auto. Qed.
Lemma reachable_step : forall su s l s', reachable su s -> dstep su s l = Some s' -> reachable su s'.
Proof.
  intros su s l s' (fs & ls & ->) E. exists fs, (ls ++ [l])%list. rewrite drun_app. cbn [drun]. rewrite E. reflexivity.
Qed.

Lemma family_eqb_refl : forall f, family_eqb f f = true. Proof. destruct f; reflexivity. Qed.
Lemma family_eqb_eq : forall a b, family_eqb a b = true <-> a = b. Proof. destruct a, b; cbn; split; congruence. Qed.
Lemma upd_same : forall A (g : family -> A) f a, upd g f a f = a.
Proof. intros; unfold upd; rewrite family_eqb_refl; auto. Qed.
Lemma upd_other : forall A (g : family -> A) f a x, x <> f -> upd g f a x = g x.
Proof. intros; unfold upd. destruct (family_eqb x f) eqn:E; auto. apply family_eqb_eq in E. congruence. Qed.
Lemma family_dec : forall a b : family, {a = b} + {a <> b}. Proof. decide equality. Qed.

(** A meeting is a listener handing over to main at its select *)
Lemma meet_cases : forall su s i j now s', dstep su s (Meet i j now) = Some s' -> ds_dead s = false /\
  ds_main s = MSelect /\ j = GMain /\ exists f, i = GListen f /\
  ((exists p, ds_listener s f = LRx p /\ s' = received su now (set_l s f LRead) (CRx f) (VPacket p)) \/
   (exists p, ds_listener s f = LTx p /\ s' = received su now (set_l s f LRead) (CTx f) (VPacket p)) \/
   (ds_listener s f = LQuit /\ s' = kill (set_l s f LGone))).
Proof.
  intros su s i j now s' H. unfold dstep in H. destruct (ds_dead s); [discriminate|]. split; [reflexivity|].
  destruct (offer_of s i) as [|c v|cs] eqn:OI; try discriminate.
  destruct (offer_of s j) as [|c' v'|cs'] eqn:OJ; try discriminate.
  destruct (existsb (chan_eqb c) cs') eqn:EX; [|discriminate]. destruct j as [fj|]; [discriminate|].
  cbn [offer_of] in OJ. destruct (ds_main s) eqn:M; [|discriminate]. split; [reflexivity|]. split; [reflexivity|].
  destruct i as [f|]; cbn [offer_of] in OI; [|rewrite M in OI; discriminate].
  exists f. split; [reflexivity|]. inversion H; subst s'; clear H. unfold offer_listener in OI. unfold sent.
  destruct (ds_listener s f) eqn:L; inversion OI; subst c v.
  - left. eauto.
  - right. left. eauto.
  - right. right. split; reflexivity.
Qed.

(** ** C60 *)
Definition order_inv (su : setup) (s : dstate) : Prop := forall f,
  (handled_of f s ++ waiting_rx f s)%list = frames_in (su_mtu su) (ds_read s f) /\
  Forall2 (answers_to (su_mtu su)) (filter (is_answered (su_mtu su)) (ds_read s f)) (shown_of f s ++ waiting_tx f s)%list.

Lemma frames_in_snoc : forall mtu h d, frames_in mtu (h ++ [d]) = (frames_in mtu h ++ frames_in mtu [d])%list.
Proof. intros. unfold frames_in. rewrite flat_map_app. reflexivity. Qed.
Lemma Forall2_snoc : forall A B (R : A -> B -> Prop) l m a b, Forall2 R l m -> R a b -> Forall2 R (l ++ [a]) (m ++ [b]).
Proof. intros. apply Forall2_app; auto. Qed.

Lemma Forall2_len : forall A B (R : A -> B -> Prop) l m, Forall2 R l m -> length l = length m.
Proof. induction 1; cbn; auto. Qed.
Lemma received_fields : forall su now s c v,
  ds_listener (received su now s c v) = ds_listener s /\ ds_read (received su now s c v) = ds_read s.
Proof.
  intros su now s c v. unfold received. destruct c, v; cbn; auto.
  - destruct (main_rx_gen _ _ _ _ _ _) as [[w [q|]]| |]; auto.
  - destruct (main_tx p); auto.
Qed.
Lemma received_rx : forall su now s f p,
  ds_handled (received su now s (CRx f) (VPacket p)) = (ds_handled s ++ [(f, now, p)])%list /\
  ds_shown (received su now s (CRx f) (VPacket p)) = ds_shown s.
Proof.
  intros su now s f p. unfold received. cbn [note_handled ds_world].
  destruct (main_rx_gen _ _ _ _ _ _) as [[w [q|]]| |]; auto.
Qed.
Lemma received_tx : forall su now s f p,
  ds_handled (received su now s (CTx f) (VPacket p)) = ds_handled s /\
  ds_shown (received su now s (CTx f) (VPacket p)) = (ds_shown s ++ [(f, p)])%list.
Proof. intros su now s f p. unfold received. destruct (main_tx p); auto. Qed.

Lemma order_step : forall su s l s', order_inv su s -> dstep su s l = Some s' -> order_inv su s'.
Proof.
  intros su s l s' I H. destruct l as [f now d from|f|i j now| | |fs].
  - unfold dstep in H. destruct (ds_dead s); [discriminate|]. destruct (ds_listener s f) eqn:L; try discriminate.
    inversion H; subst s'; clear H. pose proof (listen_spec now (su_mtu su) d from) as LS.
    assert (B : forall x, handled_of x (note_read s f (d, from)) = handled_of x s /\ shown_of x (note_read s f (d, from)) = shown_of x s) by (split; reflexivity).
    intros x. destruct (I x) as [I1 I2]. destruct (family_dec x f) as [->|NX].
    + assert (W : waiting_rx f s = [] /\ waiting_tx f s = []) by (unfold waiting_rx, waiting_tx; rewrite L; auto).
      destruct W as [W1 W2]. rewrite W1, app_nil_r in I1. rewrite W2, app_nil_r in I2.
      assert (FR : frames_in (su_mtu su) [(d, from)] =
         match datagram_fate (su_mtu su) d, frame_in d with HandedOn, Some y => [{| pk_addr := from; pk_info := y |}] | _, _ => [] end).
      { unfold frames_in. cbn [flat_map fst snd]. rewrite app_nil_r. reflexivity. }
      assert (FA : filter (is_answered (su_mtu su)) (ds_read s f ++ [(d, from)]) =
         (filter (is_answered (su_mtu su)) (ds_read s f) ++ match datagram_fate (su_mtu su) d with Answered => [(d, from)] | _ => [] end)%list).
      { rewrite filter_app. cbn [filter]. unfold is_answered at 2. cbn [fst]. destruct (datagram_fate (su_mtu su) d); reflexivity. }
      destruct (datagram_fate (su_mtu su) d) eqn:FT.
      * rewrite LS. unfold waiting_rx, waiting_tx. cbn [note_read ds_listener ds_read]. rewrite L, upd_same, frames_in_snoc, FR, FA, !app_nil_r. split; assumption.
      * destruct LS as (y & E & FI). rewrite E. unfold waiting_rx, waiting_tx. cbn [set_l note_read ds_listener ds_read].
        rewrite !upd_same, frames_in_snoc, FR, FA, FI, !app_nil_r. split; [|exact I2]. f_equal. exact I1.
      * destruct LS as (st & E & _). rewrite E. unfold waiting_rx, waiting_tx. cbn [set_l note_read ds_listener ds_read].
        rewrite !upd_same, frames_in_snoc, FR, FA, !app_nil_r. split; [exact I1|]. apply Forall2_snoc; [exact I2|].
        exact (c56_answers now (su_mtu su) d from _ E).
      * assert (E : match listen_one now (su_mtu su) d from with
               | Ret Dropped => note_read s f (d, from) | Ret (ToRx p) => set_l (note_read s f (d, from)) f (LRx p)
               | Ret (ToTx p) => set_l (note_read s f (d, from)) f (LTx p) | _ => kill (note_read s f (d, from)) end = kill (note_read s f (d, from)))
          by (destruct LS as [-> | ->]; reflexivity).
        rewrite E. unfold waiting_rx, waiting_tx. cbn [kill note_read ds_listener ds_read]. rewrite L, upd_same, frames_in_snoc, FR, FA, !app_nil_r. split; assumption.
    + destruct (listen_one now (su_mtu su) d from) as [[|p|p]| |]; unfold waiting_rx, waiting_tx; cbn [kill set_l note_read ds_listener ds_read];
      rewrite ?(upd_other _ _ f) by auto; split; assumption.
  - unfold dstep in H. destruct (ds_dead s); [discriminate|]. destruct (ds_listener s f) eqn:L; try discriminate.
    inversion H; subst s'; clear H. intros x. destruct (I x) as [I1 I2]. unfold waiting_rx, waiting_tx in *. cbn [set_l ds_listener ds_read].
    destruct (family_dec x f) as [->|NX]; [rewrite upd_same; rewrite L in I1, I2; split; assumption|]. rewrite upd_other by auto. split; assumption.
  - apply meet_cases in H. destruct H as (_ & _ & _ & f & _ & [(p & L & ->)|[(p & L & ->)|(L & ->)]]); intros x; destruct (I x) as [I1 I2].
    + destruct (received_fields su now (set_l s f LRead) (CRx f) (VPacket p)) as [F1 F2].
      destruct (received_rx su now (set_l s f LRead) f p) as [F3 F4].
      unfold handled_of, shown_of, waiting_rx, waiting_tx in *. rewrite F1, F2, F3, F4. cbn [set_l ds_listener ds_read ds_handled ds_shown].
      rewrite filter_app, map_app. cbn [filter fst snd map]. destruct (family_dec x f) as [->|NX].
      * rewrite upd_same, family_eqb_refl. rewrite L in I1, I2. cbv iota in *. cbn [map snd]. rewrite app_nil_r. split; assumption.
      * rewrite upd_other by auto. destruct (family_eqb f x) eqn:E; [apply family_eqb_eq in E; congruence|]. cbn [map]. rewrite app_nil_r. split; assumption.
    + destruct (received_fields su now (set_l s f LRead) (CTx f) (VPacket p)) as [F1 F2].
      destruct (received_tx su now (set_l s f LRead) f p) as [F3 F4].
      unfold handled_of, shown_of, waiting_rx, waiting_tx in *. rewrite F1, F2, F3, F4. cbn [set_l ds_listener ds_read ds_handled ds_shown].
      rewrite (filter_app _ (ds_shown s)), (map_app _ (filter _ (ds_shown s))). cbn [filter fst snd map]. destruct (family_dec x f) as [->|NX].
      * rewrite upd_same, family_eqb_refl. rewrite L in I1, I2. cbv iota in *. cbn [map snd]. rewrite !app_nil_r in *. split; assumption.
      * rewrite upd_other by auto. destruct (family_eqb f x) eqn:E; [apply family_eqb_eq in E; congruence|]. cbn [map]. rewrite app_nil_r. split; assumption.
    + unfold handled_of, shown_of, waiting_rx, waiting_tx in *. cbn [kill set_l ds_listener ds_read ds_handled ds_shown].
      destruct (family_dec x f) as [->|NX]; [rewrite upd_same; rewrite L in I1, I2; split; assumption|]. rewrite upd_other by auto. split; assumption.
  - unfold dstep in H. destruct (ds_dead s); [discriminate|]. inversion H; subst s'. exact I.
  - unfold dstep in H. destruct (ds_dead s); [discriminate|]. destruct (ds_main s); [|discriminate]. destruct (ds_errflag s); [|discriminate]. inversion H; subst s'. exact I.
  - unfold dstep in H. destruct (ds_dead s); [discriminate|]. inversion H; subst s'. exact I.
Qed.

(** C60: in every state of every run, what main has handled of a family, followed by
    the frame that listener is waiting to hand over, is the list of frames held by the
    datagrams it has read, each once and in the order of arrival. *)
Lemma c60_order : forall su s, reachable su s -> forall f,
  (handled_of f s ++ waiting_rx f s)%list = frames_in (su_mtu su) (ds_read s f).
Proof.
  intros su s R f. apply (reach_inv su (order_inv su)); auto.
  - intros fs x. split; [reflexivity|constructor].
  - intros. eapply order_step; eauto.
Qed.
(** C60: the same for the answers: one for each datagram that is answered, in order. *)
Lemma c60_answers : forall su s, reachable su s -> forall f,
  Forall2 (answers_to (su_mtu su)) (filter (is_answered (su_mtu su)) (ds_read s f)) (shown_of f s ++ waiting_tx f s)%list.
Proof.
  intros su s R f. apply (reach_inv su (order_inv su)); auto.
  - intros fs x. split; [reflexivity|constructor].
  - intros. eapply order_step; eauto.
Qed.
(** C60: a frame that waits can be taken as long as the process lives and main is at its select. *)
Lemma c60_can_take : forall su s f p now, ds_dead s = false -> ds_main s = MSelect ->
  (ds_listener s f = LRx p \/ ds_listener s f = LTx p) ->
  exists s', dstep su s (Meet (GListen f) GMain now) = Some s' /\ ds_listener s' f = LRead.
Proof.
  intros su s f p now D M L. unfold dstep. rewrite D. cbn [offer_of]. rewrite M. cbn [offer_main].
  destruct L as [L|L]; rewrite L; cbn [offer_listener existsb chan_eqb].
  - replace (family_eqb f V4 || (family_eqb f V6 || (false || (false || (false || (false || false)))))) with true by (destruct f; reflexivity).
    eexists. split; [reflexivity|]. destruct (received_fields su now (sent s (GListen f)) (CRx f) (VPacket p)) as [F _]. rewrite F.
    unfold sent. rewrite L. cbn [set_l ds_listener]. apply upd_same.
  - replace (false || (false || (family_eqb f V4 || (family_eqb f V6 || (false || (false || false)))))) with true by (destruct f; reflexivity).
    eexists. split; [reflexivity|]. destruct (received_fields su now (sent s (GListen f)) (CTx f) (VPacket p)) as [F _]. rewrite F.
    unfold sent. rewrite L. cbn [set_l ds_listener]. apply upd_same.
Qed.

(** C60: a socket that cannot be read any more: its listener reads nothing further, and the
    daemon ends when main takes note of it. *)
Lemma c60_read_error : forall su s f, ds_dead s = false -> ds_listener s f = LRead ->
  exists s', dstep su s (Read_error f) = Some s' /\
    (forall now d from, dstep su s' (Datagram f now d from) = None) /\
    (forall now, ds_main s = MSelect -> exists s2, dstep su s' (Meet (GListen f) GMain now) = Some s2 /\ ds_dead s2 = true).
Proof.
  intros su s f D L. unfold dstep. rewrite D, L. eexists. split; [reflexivity|].
  assert (L' : ds_listener (set_l s f LQuit) f = LQuit) by apply upd_same.
  assert (D' : ds_dead (set_l s f LQuit) = false) by exact D. rewrite D', L'. split; [reflexivity|].
  intros now M. assert (M' : ds_main (set_l s f LQuit) = MSelect) by exact M.
  cbn [offer_of]. rewrite M', L'. cbn [offer_main offer_listener]. 
  match goal with |- context[existsb ?g ?l] => replace (existsb g l) with true by (destruct f; reflexivity) end.
  eexists. split; reflexivity.
Qed.

(** ** C59 *)
(** C59: once main has begun to send an answer itself it never comes back, whatever the
    handler of requests does and whatever happens: it handles no more frames, shows none, and
    takes no notice of the user quitting. *)
Lemma c59_blocked : forall su s f p ls, ds_main s = MSend f p ->
  let s' := drun su s ls in
  ds_main s' = MSend f p /\ ds_handled s' = ds_handled s /\ ds_shown s' = ds_shown s /\
  w_peers (ds_world s') = w_peers (ds_world s) /\ w_transfers (ds_world s') = w_transfers (ds_world s).
Proof.
  intros su s f p ls M. cbv zeta.
  apply (run_inv su (fun s' => ds_main s' = MSend f p /\ ds_handled s' = ds_handled s /\ ds_shown s' = ds_shown s /\
    w_peers (ds_world s') = w_peers (ds_world s) /\ w_transfers (ds_world s') = w_transfers (ds_world s))); [|auto].
  clear ls. intros t l t' (M' & H1 & H2 & H3 & H4) E. destruct l as [g now d from|g|i j now| | |fs].
  - unfold dstep in E. destruct (ds_dead t); [discriminate|]. destruct (ds_listener t g); try discriminate. inversion E; subst t'.
    destruct (listen_one now (su_mtu su) d from) as [[|q|q]| |]; repeat split; auto.
  - unfold dstep in E. destruct (ds_dead t); [discriminate|]. destruct (ds_listener t g); try discriminate. inversion E; subst t'. repeat split; auto.
  - apply meet_cases in E. destruct E as (_ & M2 & _). congruence.
  - unfold dstep in E. destruct (ds_dead t); [discriminate|]. inversion E; subst t'. repeat split; auto.
  - unfold dstep in E. destruct (ds_dead t); [discriminate|]. rewrite M' in E. discriminate.
  - unfold dstep in E. destruct (ds_dead t); [discriminate|]. inversion E; subst t'. repeat split; auto.
Qed.
(** C59: each listener then gets no further than the next datagram that is not dropped. *)
Lemma c59_listeners : forall su s f p ls x, reachable su s -> ds_main s = MSend f p ->
  let s' := drun su s ls in
  (length (frames_in (su_mtu su) (ds_read s' x)) + length (filter (is_answered (su_mtu su)) (ds_read s' x)) <=
   length (handled_of x s) + length (shown_of x s) + 1)%nat.
Proof.
  intros su s f p ls x R M s'.
  assert (R' : reachable su s').
  { destruct R as (fs & l0 & ->). exists fs, (l0 ++ ls)%list. rewrite drun_app. reflexivity. }
  destruct (c59_blocked su s f p ls M) as (_ & H1 & H2 & _). fold s' in H1, H2.
  rewrite <- (c60_order su s' R' x). rewrite (Forall2_len _ _ _ _ _ (c60_answers su s' R' x)). rewrite !app_length.
  unfold handled_of, shown_of, waiting_rx, waiting_tx. rewrite H1, H2.
  destruct (ds_listener s' x); cbn [length]; lia.
Qed.
(** C59: were requests read as intended, every request that is answered would block the daemon in this way. *)
Lemma c59_every_answer : forall timetype mtu cwd sardir s f a r now,
  let su := daemon_reading timetype mtu cwd sardir in
  let removable := match file_rm (w_fs (ds_world s)) cwd sardir (r_fname r) with inl _ => true | inr _ => false end in
  ds_dead s = false -> ds_main s = MSelect -> ds_listener s f = LRx {| pk_addr := a; pk_info := FRequest r |} ->
  (exists code, decide (r_header r) (file_exists (w_fs (ds_world s)) cwd sardir (r_fname r)) removable = Refuse code \/
                decide (r_header r) (file_exists (w_fs (ds_world s)) cwd sardir (r_fname r)) removable = Remove_file) ->
  exists s' p, dstep su s (Meet (GListen f) GMain now) = Some s' /\ ds_main s' = MSend f p /\ pk_addr p = a /\ ds_dead s' = false.
Proof.
  intros timetype mtu cwd sardir s f a r now su removable D M L (code & DC).
  destruct (c60_can_take su s f _ now D M (or_introl L)) as (s' & E & _). exists s'.
  pose proof (meet_cases su s _ _ now s' E) as (_ & _ & _ & g & G & C). inversion G; subst g. clear G.
  destruct C as [(p & L' & ->)|[(p & L' & _)|(L' & _)]]; try congruence. rewrite L in L'. inversion L'; subst p. clear L'.
  cbn [received]. cbn [note_handled set_l ds_world]. unfold main_rx_gen. cbn [pk_info pk_addr su_handle su daemon_reading request_shortprint_ok obind su_cwd su_sardir].
  pose proof (c58_table timetype now cwd sardir (w_fs (ds_world s)) (w_transfers (ds_world s)) r a) as T. cbv zeta in T. fold removable in T.
  destruct DC as [DC|DC]; rewrite DC in T.
  - destruct T as (st & _ & T). exists (status_val st a). split; [exact E|]. unfold su in *. cbn [received] in *.
    cbn [note_handled set_l ds_world]. unfold main_rx_gen. cbn [pk_info pk_addr su_handle daemon_reading request_shortprint_ok obind su_cwd su_sardir].
    rewrite T. cbn. auto.
  - destruct T as (st & fs' & _ & _ & T). exists (status_val st a). split; [exact E|]. unfold su in *.
    cbn [note_handled set_l ds_world]. unfold main_rx_gen. cbn [pk_info pk_addr su_handle daemon_reading request_shortprint_ok obind su_cwd su_sardir].
    rewrite T. cbn. auto.
Qed.

(** C58: were requests read as intended, this is what main taking one would change. *)
Lemma c58_main : forall timetype mtu cwd sardir s f a r now,
  let su := daemon_reading timetype mtu cwd sardir in
  let w := ds_world s in
  let removable := match file_rm (w_fs w) cwd sardir (r_fname r) with inl _ => true | inr _ => false end in
  ds_dead s = false -> ds_main s = MSelect -> ds_listener s f = LRx {| pk_addr := a; pk_info := FRequest r |} ->
  exists s', dstep su s (Meet (GListen f) GMain now) = Some s' /\
  match decide (r_header r) (file_exists (w_fs w) cwd sardir (r_fname r)) removable with
  | Kills => ds_dead s' = true
  | Refuse _ => ds_dead s' = false /\ ds_world s' = w
  | Remove_file => ds_dead s' = false /\ exists fs', file_rm (w_fs w) cwd sardir (r_fname r) = inl fs' /\
      ds_world s' = {| w_fs := fs'; w_transfers := w_transfers w; w_peers := w_peers w |}
  | Take_on t =>
      match ts_now now zero_timestamp timetype with
      | Ret (ts, _) => ds_dead s' = false /\
          ds_world s' = {| w_fs := w_fs w; w_peers := w_peers w;
                           w_transfers := (w_transfers w ++ [{| rt_peer := a; rt_session := r_session r; rt_ttype := t; rt_fname := r_fname r;
                             rt_timetype := timetype; rt_tstamp := ts; rt_csumtype := "none" |}])%list |}
      | _ => ds_dead s' = true
      end
  end.
Proof.
  intros timetype mtu cwd sardir s f a r now su w removable D M L.
  destruct (c60_can_take su s f _ now D M (or_introl L)) as (s' & E & _). exists s'. split; [exact E|].
  pose proof (meet_cases su s _ _ now s' E) as (_ & _ & _ & g & G & C). inversion G; subst g. clear G E.
  destruct C as [(p & L' & ->)|[(p & L' & _)|(L' & _)]]; try congruence. rewrite L in L'. inversion L'; subst p. clear L'.
  cbn [received]. cbn [note_handled set_l ds_world]. unfold main_rx_gen. cbn [pk_info pk_addr su_handle su daemon_reading request_shortprint_ok obind su_cwd su_sardir].
  pose proof (c58_table timetype now cwd sardir (w_fs w) (w_transfers w) r a) as T. cbv zeta in T. fold removable in T. fold w.
  destruct (decide (r_header r) (file_exists (w_fs w) cwd sardir (r_fname r)) removable).
  - destruct T as (st & _ & T). rewrite T. cbn. split; [exact D|]. destruct w; reflexivity.
  - destruct T as (st & fs' & _ & X & T). rewrite T. cbn. split; [exact D|]. exists fs'. auto.
  - destruct (ts_now now zero_timestamp timetype) as [(ts & e)| |]; [destruct T as (st & _ & T)|..]; rewrite T; cbn; auto.
  - rewrite T. reflexivity.
Qed.

(** ** C57 and C76: the daemon as it is *)
Lemma register_all_app : forall h1 h2 ps, register_all ps (h1 ++ h2) =
  (do ' (ps1, r1) <- register_all ps h1; do ' (ps2, r2) <- register_all ps1 h2; Ret (ps2, (r1 ++ r2)%list)).
Proof.
  induction h1 as [|s h1 IH]; intros h2 ps; cbn [app register_all].
  - cbn [obind]. destruct (register_all ps h2) as [[ps2 r2]| |]; reflexivity.
  - destruct (new_peer _ _ _ _) as [[ps1 rep]| |]; cbn [obind]; auto. rewrite IH.
    destruct (register_all ps1 h1) as [[ps2 reps]| |]; cbn [obind]; auto.
    destruct (register_all ps2 h2) as [[ps3 rep']| |]; reflexivity.
Qed.

Definition alive_inv (s : dstate) : Prop :=
  ds_main s = MSelect /\ w_transfers (ds_world s) = [] /\
  (ds_dead s = false -> (forall h, In h (ds_handled s) -> forall r, pk_info (snd h) <> FRequest r) /\
     exists reps, register_all [] (beacons_of (ds_handled s)) = Ret (w_peers (ds_world s), reps)).

Lemma alive_step : forall mtu cwd sardir s l s', alive_inv s -> dstep (the_daemon mtu cwd sardir) s l = Some s' -> alive_inv s'.
Proof.
  intros mtu cwd sardir s l s' (M & T & A) H. set (su := the_daemon mtu cwd sardir) in *.
  destruct l as [f now d from|f|i j now| | |fs].
  - unfold dstep in H. destruct (ds_dead s) eqn:D; [discriminate|]. destruct (ds_listener s f); try discriminate.
    inversion H; subst s'.
    destruct (listen_one now mtu d from) as [[|p|p]| |]; (split; [exact M|]; split; [exact T|]);
      cbn [kill set_l note_read ds_dead ds_handled ds_world]; try discriminate; rewrite D; auto.
  - unfold dstep in H. destruct (ds_dead s) eqn:D; [discriminate|]. destruct (ds_listener s f); try discriminate.
    inversion H; subst s'. split; [exact M|]; split; [exact T|]. cbn [set_l ds_dead ds_handled ds_world]. rewrite D. auto.
  - apply meet_cases in H. destruct H as (D & _ & _ & f & _ & [(p & L & ->)|[(p & L & ->)|(L & ->)]]).
    + specialize (A D). destruct A as [A1 (reps & A2)].
      unfold received. cbn [note_handled set_l ds_world]. cbn [su the_daemon su_handle su_cwd su_sardir].
      assert (BO : beacons_of (ds_handled s ++ [(f, now, p)]) = (beacons_of (ds_handled s) ++ beacons_of [(f, now, p)])%list)
        by (unfold beacons_of; rewrite flat_map_app; reflexivity).
      assert (NB : forall w', w_transfers w' = [] -> (forall r, pk_info p <> FRequest r) ->
         (exists rs, register_all (w_peers (ds_world s)) (beacons_of [(f, now, p)]) = Ret (w_peers w', rs)) ->
         alive_inv (set_world (note_handled (set_l s f LRead) (f, now, p)) w')).
      { intros w' TW NR (rs & RS). split; [exact M|]. split; [exact TW|]. intros _. cbn [set_world note_handled set_l ds_handled ds_world]. split.
        - intros h I r. apply in_app_iff in I. destruct I as [I|[<-|[]]]; [auto|]. apply NR.
        - rewrite BO, register_all_app, A2. cbn [obind]. rewrite RS. cbn [obind]. eauto. }
      assert (KL : alive_inv (kill (note_handled (set_l s f LRead) (f, now, p)))).
      { split; [exact M|]. split; [exact T|]. discriminate. }
      unfold main_rx_gen. destruct (pk_info p) as [b|r|m|d|st] eqn:P.
      * destruct (beacon_shortprint_ok b); cbn [obind]; try exact KL.
        destruct (new_peer now (w_peers (ds_world s)) b (Some (ua_ip (pk_addr p)))) as [[ps rep]| |] eqn:NP; cbn [obind]; try exact KL.
        apply NB; [exact T|discriminate|]. unfold beacons_of. cbn [flat_map snd fst]. rewrite P. cbn [app register_all sg_now sg_beacon sg_from].
        rewrite NP. cbn [obind]. eauto.
      * exact KL.
      * destruct (meta_shortprint_ok m); cbn [obind]; try exact KL. apply NB; [exact T|discriminate|].
        unfold beacons_of. cbn [flat_map snd fst]. rewrite P. cbn. eauto.
      * destruct (data_shortprint_ok d); cbn [obind]; try exact KL. apply NB; [exact T|discriminate|].
        unfold beacons_of. cbn [flat_map snd fst]. rewrite P. cbn. eauto.
      * destruct (status_shortprint_ok st); cbn [obind]; try exact KL. apply NB; [exact T|discriminate|].
        unfold beacons_of. cbn [flat_map snd fst]. rewrite P. cbn. eauto.
    + unfold received. destruct (main_tx p); (split; [exact M|]; split; [exact T|]); cbn [kill note_shown set_l ds_dead ds_handled ds_world];
      try discriminate; rewrite D; auto.
    + split; [exact M|]; split; [exact T|]. discriminate.
  - unfold dstep in H. destruct (ds_dead s) eqn:D; [discriminate|]. inversion H; subst s'. split; [exact M|]; split; [exact T|].
    cbn [set_errflag ds_dead ds_handled ds_world]. rewrite D. auto.
  - unfold dstep in H. destruct (ds_dead s) eqn:D; [discriminate|]. destruct (ds_main s) eqn:MM; [|discriminate]. destruct (ds_errflag s); [|discriminate].
    inversion H; subst s'. split; [exact MM|]; split; [exact T|]. discriminate.
  - unfold dstep in H. destruct (ds_dead s) eqn:D; [discriminate|]. inversion H; subst s'. split; [exact M|]; split; [exact T|].
    cbn [set_world ds_dead ds_handled ds_world w_peers]. rewrite D. auto.
Qed.
Lemma alive_reach : forall mtu cwd sardir s, reachable (the_daemon mtu cwd sardir) s -> alive_inv s.
Proof.
  intros mtu cwd sardir s R. apply (reach_inv (the_daemon mtu cwd sardir) alive_inv); auto.
  - intros fs. split; [reflexivity|]. split; [reflexivity|]. intros _. split; [intros h []|]. exists []. reflexivity.
  - intros. eapply alive_step; eauto.
Qed.

(** C57: in no run has a request been handled while the daemon lives; no transfer is ever
    recorded, and main never sends an answer. *)
Lemma c57_never : forall mtu cwd sardir s, reachable (the_daemon mtu cwd sardir) s ->
  ds_main s = MSelect /\ w_transfers (ds_world s) = [] /\
  (ds_dead s = false -> forall h, In h (ds_handled s) -> forall r, pk_info (snd h) <> FRequest r).
Proof.
  intros mtu cwd sardir s R. destruct (alive_reach mtu cwd sardir s R) as (A & B & C). split; [auto|]. split; [auto|].
  intros D. apply (C D).
Qed.
(** C57: main taking a request is the end of the process, in every state. *)
Lemma c57_taken : forall mtu cwd sardir s f a r now,
  ds_dead s = false -> ds_main s = MSelect -> ds_listener s f = LRx {| pk_addr := a; pk_info := FRequest r |} ->
  exists s', dstep (the_daemon mtu cwd sardir) s (Meet (GListen f) GMain now) = Some s' /\ ds_dead s' = true.
Proof.
  intros mtu cwd sardir s f a r now D M L.
  destruct (c60_can_take (the_daemon mtu cwd sardir) s f _ now D M (or_introl L)) as (s' & E & _). exists s'. split; [exact E|].
  apply meet_cases in E. destruct E as (_ & _ & _ & g & G & C). inversion G; subst g. clear G.
  destruct C as [(p & L' & ->)|[(p & L' & _)|(L' & _)]]; try congruence. rewrite L in L'. inversion L'; subst p. reflexivity.
Qed.

Lemma heard_good : forall mtu cwd sardir s, reachable_good (the_daemon mtu cwd sardir) s ->
  forall h, In h (beacons_of (ds_handled s)) -> good_now (sg_now h).
Proof.
  intros mtu cwd sardir s (fs & ls & G & E).
  assert (I : forall h, In h (ds_handled s) -> good_now (snd (fst h))).
    { rewrite E. apply (run_inv_good (the_daemon mtu cwd sardir) (fun s => forall h, In h (ds_handled s) -> good_now (snd (fst h)))); [|exact G|intros h []].
      clear. intros s l s' GL I H. destruct l as [f now d from|f|i j now| | |fs].
      - unfold dstep in H. destruct (ds_dead s); [discriminate|]. destruct (ds_listener s f); try discriminate.
        inversion H; subst s'. destruct (listen_one now _ d from) as [[|p|p]| |]; exact I.
      - unfold dstep in H. destruct (ds_dead s); [discriminate|]. destruct (ds_listener s f); try discriminate. inversion H; subst s'. exact I.
      - apply meet_cases in H. destruct H as (D & _ & _ & f & _ & [(p & L & ->)|[(p & L & ->)|(L & ->)]]).
        + destruct (received_rx (the_daemon mtu cwd sardir) now (set_l s f LRead) f p) as [-> _].
          intros h X. apply in_app_iff in X. destruct X as [X|[<-|[]]]; [apply I; exact X|exact GL].
        + destruct (received_tx (the_daemon mtu cwd sardir) now (set_l s f LRead) f p) as [-> _]. exact I.
        + exact I.
      - unfold dstep in H. destruct (ds_dead s); [discriminate|]. inversion H; subst s'. exact I.
      - unfold dstep in H. destruct (ds_dead s); [discriminate|]. destruct (ds_main s); [|discriminate]. destruct (ds_errflag s); [|discriminate]. inversion H; subst s'. exact I.
      - unfold dstep in H. destruct (ds_dead s); [discriminate|]. inversion H; subst s'. exact I. }
    intros h X. unfold beacons_of in X. apply in_flat_map in X. destruct X as (x & X1 & X2).
    destruct (pk_info (snd x)); [|destruct X2 ..]. destruct X2 as [<-|[]]. cbn [sg_now]. apply I; auto.
Qed.
(** C76: in every state of every run in which the daemon lives, the peer table is the
    one that the beacons handled so far call for. *)
Lemma c76_peers : forall mtu cwd sardir s, reachable_good (the_daemon mtu cwd sardir) s -> ds_dead s = false ->
  let hist := beacons_of (ds_handled s) in
  let ps := w_peers (ds_world s) in
  NoDup (map p_addr ps) /\
  (forall a, In a (map p_addr ps) <-> exists b, In b hist /\ sg_from b = Some a) /\
  (forall p, In p ps -> right_entry hist p).
Proof.
  intros mtu cwd sardir s (fs & ls & G & E) D hist ps.
  pose proof (heard_good mtu cwd sardir s (ex_intro _ fs (ex_intro _ ls (conj G E)))) as GH. fold hist in GH.
  assert (R : reachable (the_daemon mtu cwd sardir) s) by (exists fs, ls; exact E).
  destruct (alive_reach mtu cwd sardir s R) as (_ & _ & A). destruct (A D) as (_ & reps & RA).
  destruct (c41_history hist GH) as (ps' & reps' & RA' & ND & AD & RE & _). fold hist in RA. rewrite RA in RA'. inversion RA'; subst ps'.
  auto.
Qed.

(** ** C139 *)
(** the frames of a datagram that is handed on *)
Lemma handed_kind : forall mtu d p, datagram_fate mtu d = HandedOn -> frame_in d = Some (pk_info p) ->
  match pk_info p with
  | FRequest _ => hd_frametype (number_at d 0 4) = 1
  | FMetadata m => hd_frametype (number_at d 0 4) = 2 /\ m_header m = number_at d 0 4
  | _ => hd_frametype (number_at d 0 4) <> 1 /\ hd_frametype (number_at d 0 4) <> 2
  end.
Proof.
  intros mtu d p F I. unfold datagram_fate in F. destruct (fits_mtu_b mtu d); [|discriminate]. cbv zeta in F.
  destruct (hd_version (number_at d 0 4)) as [|[q|q|]] eqn:HV; try discriminate.
  unfold frame_in in I. cbv zeta in I. set (h := number_at d 0 4) in *.
  destruct (hd_frametype h) as [|[[x|x|]|[x|[x|x|]|]|]] eqn:HF; try discriminate.
  - destruct (space_width h); [|discriminate]. inversion I. split; discriminate.
  - destruct (descriptor_width (hd_descriptor h)); [|discriminate]. inversion I. split; discriminate.
  - destruct (descriptor_width (hd_descriptor h)); [|discriminate]. inversion I. split; discriminate.
  - destruct (descriptor_width _); [|discriminate]. inversion I. split; reflexivity.
  - inversion I. reflexivity.
Qed.
(** what main makes of a frame that a listener has handed on *)
Lemma main_takes : forall now mtu d from p now' cwd sardir w, listen_one now mtu d from = Ret (ToRx p) -> good_now now' ->
  (exists w', main_rx now' cwd sardir w p = Ret (w', None)) /\ ~ lethal mtu d \/ main_rx now' cwd sardir w p = Fatal /\ lethal mtu d.
Proof.
  intros now mtu d from p now' cwd sardir w L G. pose proof (c75_survives now mtu d from p now' cwd sardir w L G) as S.
  destruct (c55_whole now mtu d from p L) as (_ & _ & _ & FI). pose proof (c56_fate now mtu d from) as FT. rewrite L in FT. cbn [fate_of] in FT. symmetry in FT.
  pose proof (handed_kind mtu d p FT FI) as K. unfold lethal. rewrite FT. cbv zeta.
  destruct (pk_info p) as [b|r|m|x|st].
  - destruct S as (ps & rep & _ & S). left. rewrite S. split; [eauto|]. intuition congruence.
  - right. auto.
  - destruct K as [K KH]. rewrite KH in S. destruct (N.leb_spec (hd_csumtype (number_at d 0 4)) 3).
    + left. split; [eauto|]. intros [X|[_ X]]; [congruence|lia].
    + right. split; [exact S|]. right. split; [exact K|lia].
  - left. rewrite S. split; [eauto|]. intuition congruence.
  - left. rewrite S. split; [eauto|]. intuition congruence.
Qed.
Definition living (mtu : Z) (s : dstate) : Prop :=
  ds_dead s = false /\ ds_main s = MSelect /\ ds_errflag s = false /\
  forall f, match ds_listener s f with
            | LRead => True
            | LRx p => exists now d from, listen_one now mtu d from = Ret (ToRx p) /\ ~ lethal mtu d
            | LTx p => exists now d from, listen_one now mtu d from = Ret (ToTx p)
            | _ => False
            end.
Lemma living_step : forall mtu cwd sardir s l s', good_label l -> harmless mtu l -> living mtu s -> dstep (the_daemon mtu cwd sardir) s l = Some s' -> living mtu s'.
Proof.
  intros mtu cwd sardir s l s' G H (D & M & E & A) S. destruct l as [f now d from|f|i j now| | |fs]; try (exfalso; exact H).
  - unfold dstep in S. rewrite D in S. destruct (ds_listener s f) eqn:LF; try discriminate. inversion S; subst s'; clear S. cbn [su_mtu the_daemon].
    cbn in H. pose proof (c56_fate now mtu d from) as FT.
    destruct (listen_one now mtu d from) as [[|p|p]| |] eqn:L; cbn [fate_of] in FT;
      try (exfalso; apply H; unfold lethal; rewrite <- FT; exact I).
    + split; [exact D|]. split; [exact M|]. split; [exact E|]. exact A.
    + split; [exact D|]. split; [exact M|]. split; [exact E|]. intros x. cbn [set_l note_read ds_listener]. unfold upd. destruct (family_eqb x f); [eauto 6|apply A].
    + split; [exact D|]. split; [exact M|]. split; [exact E|]. intros x. cbn [set_l note_read ds_listener]. unfold upd. destruct (family_eqb x f); [eauto 6|apply A].
  - apply meet_cases in S. destruct S as (_ & _ & _ & f & _ & C). pose proof (A f) as AF.
    assert (OK : forall s1, ds_dead s1 = false -> ds_main s1 = MSelect -> ds_errflag s1 = ds_errflag s -> ds_listener s1 = upd (ds_listener s) f LRead -> living mtu s1).
    { intros s1 D1 M1 E1 L1. split; [exact D1|]. split; [exact M1|]. split; [congruence|]. intros x. rewrite L1. unfold upd. destruct (family_eqb x f); [exact I|apply A]. }
    destruct C as [(p & L & ->)|[(p & L & ->)|(L & _)]]; rewrite L in AF; [| |contradiction].
    + destruct AF as (n0 & d & from & LO & ND). unfold received. cbn [note_handled set_l ds_world su_handle su_cwd su_sardir the_daemon].
      destruct (main_takes n0 mtu d from p now cwd sardir (ds_world s) LO G) as [[(w' & R) _]|[_ X]]; [|contradiction].
      unfold main_rx in R. rewrite R. apply OK; auto.
    + destruct AF as (n0 & d & from & LO). unfold received. rewrite (c75_answers_print n0 mtu d from p LO). apply OK; auto.
  - unfold dstep in S. rewrite D, M, E in S. discriminate.
  - unfold dstep in S. rewrite D in S. inversion S; subst s'. split; [exact D|]. split; [exact M|]. split; [exact E|]. exact A.
Qed.
(** C139: as long as no lethal datagram arrives, both sockets can be read and nobody quits,
    the daemon lives, in every schedule. *)
Lemma c139_lives : forall mtu cwd sardir fs ls, (forall l, In l ls -> good_label l /\ harmless mtu l) ->
  ds_dead (drun (the_daemon mtu cwd sardir) (start fs) ls) = false.
Proof.
  intros mtu cwd sardir fs ls H.
  assert (X : forall ls s, (forall l, In l ls -> good_label l /\ harmless mtu l) -> living mtu s -> living mtu (drun (the_daemon mtu cwd sardir) s ls)).
  { clear ls H. induction ls as [|l ls IH]; intros s H L; [exact L|]. cbn [drun]. apply IH; [intros; apply H; right; auto|].
    destruct (dstep (the_daemon mtu cwd sardir) s l) as [s'|] eqn:S; [|exact L]. destruct (H l (or_introl eq_refl)). eapply living_step; eauto. }
  apply X; [exact H|]. repeat split.
Qed.
(** C139: each of the three does end it, whatever has happened before: a lethal datagram as
    soon as it is read or main takes its frame, *)
Lemma c139_deadly : forall mtu cwd sardir s f now now' d from, reachable (the_daemon mtu cwd sardir) s -> ds_listener s f = LRead ->
  good_now now' -> lethal mtu d ->
  ds_dead (drun (the_daemon mtu cwd sardir) s [Datagram f now d from; Meet (GListen f) GMain now']) = true.
Proof.
  intros mtu cwd sardir s f now now' d from R L G X. set (su := the_daemon mtu cwd sardir).
  destruct (c57_never mtu cwd sardir s R) as (M & _ & _). cbn [drun].
  destruct (ds_dead s) eqn:D.
  - unfold dstep at 2. rewrite D. unfold dstep. rewrite D. exact D.
  - assert (S1 : dstep su s (Datagram f now d from) = Some match listen_one now mtu d from with
        | Ret Dropped => note_read s f (d, from) | Ret (ToRx p) => set_l (note_read s f (d, from)) f (LRx p)
        | Ret (ToTx p) => set_l (note_read s f (d, from)) f (LTx p) | _ => kill (note_read s f (d, from)) end)
      by (unfold dstep; rewrite D, L; reflexivity).
    rewrite S1. pose proof (c56_fate now mtu d from) as FT.
    destruct (listen_one now mtu d from) as [[|p|p]| |] eqn:LO; cbn [fate_of] in FT; try (unfold lethal in X; rewrite <- FT in X; contradiction X).
    + set (s1 := set_l (note_read s f (d, from)) f (LRx p)).
      destruct (c60_can_take su s1 f p now') as (s2 & S & _); [exact D|exact M|left; unfold s1; cbn [set_l ds_listener]; apply upd_same|].
      fold su. rewrite S. apply meet_cases in S. destruct S as (_ & _ & _ & g & GG & C). inversion GG; subst g. unfold s1 in C. cbn [set_l ds_listener] in C. rewrite upd_same in C.
      destruct C as [(p' & E & ->)|[(p' & E & _)|(E & _)]]; try discriminate E. inversion E; subst p'. unfold received. cbn [note_handled note_read set_l ds_world su su_handle su_cwd su_sardir the_daemon].
      destruct (main_takes now mtu d from p now' cwd sardir (ds_world s) LO G) as [[_ Y]|[Y _]]; [contradiction|].
      unfold main_rx in Y. rewrite Y. reflexivity.
    + reflexivity.
    + reflexivity.
Qed.
(** C139: a socket that cannot be read, and a user who quits, as soon as main takes note. *)
Lemma c139_others : forall mtu cwd sardir s f now, reachable (the_daemon mtu cwd sardir) s ->
  (ds_listener s f = LRead -> ds_dead (drun (the_daemon mtu cwd sardir) s [Read_error f; Meet (GListen f) GMain now]) = true) /\
  ds_dead (drun (the_daemon mtu cwd sardir) s [User_quits; Take_errflag]) = true.
Proof.
  intros mtu cwd sardir s f now R. destruct (c57_never mtu cwd sardir s R) as (M & _ & _). set (su := the_daemon mtu cwd sardir). destruct (ds_dead s) eqn:D.
  - cbn [drun]. split; [intros L|]; unfold dstep at 2; rewrite D; unfold dstep; rewrite D; exact D.
  - split.
    + intros L. destruct (c60_read_error su s f D L) as (s1 & S1 & _ & K). destruct (K now M) as (s2 & S2 & D2). cbn [drun]. rewrite S1, S2. exact D2.
    + cbn [drun]. unfold dstep at 2. rewrite D. unfold dstep. cbn [set_errflag ds_dead ds_main ds_errflag]. rewrite D, M. reflexivity.
Qed.

(** ** Examples *)
Definition ex_from2 : udpaddr := {| ua_ip := "fe80::1"; ua_port := 7542; ua_zone := "eth0" |}.
Definition ex_dgram2 : list byte := (wire 4 0x20000000 ++ bytes_of "other")%list.
Definition ex_daemon : setup := the_daemon 1500 [] "/Users/chas/sardir".
(** two beacons of one family, one of the other, a version 0 datagram, interleaved *)
Definition ex_run : list label :=
  [Datagram V4 ex_now ex_beacon_dgram ex_from; Datagram V6 ex_now ex_dgram2 ex_from2; Meet (GListen V6) GMain ex_now;
   Datagram V6 ex_now (wire 4 0 ++ wire 4 0)%list ex_from2; Meet (GListen V4) GMain ex_later;
   Datagram V4 ex_later ex_dgram2 ex_from; Meet (GListen V6) GMain ex_later; Meet (GListen V4) GMain ex_later].
Example c60_read_error_ex : ds_dead (start ex_tree) = false /\ ds_listener (start ex_tree) V6 = LRead /\ ds_main (start ex_tree) = MSelect /\
  ds_dead (drun ex_daemon (start ex_tree) [Read_error V6; Meet (GListen V6) GMain ex_now]) = true.
Proof. vm_compute. auto. Qed.
Example c60_order_ex : let s := drun ex_daemon (start ex_tree) ex_run in
  ds_dead s = false /\ length (handled_of V4 s) = 2%nat /\ length (handled_of V6 s) = 1%nat /\ length (shown_of V6 s) = 1%nat /\
  map (fun h => fst (fst h)) (ds_handled s) = [V6; V4; V4].
Proof. vm_compute. repeat split. Qed.
Example c60_can_take_ex : let s := drun ex_daemon (start ex_tree) [Datagram V4 ex_now ex_beacon_dgram ex_from] in
  ds_dead s = false /\ ds_main s = MSelect /\ exists p, ds_listener s V4 = LRx p.
Proof. cbv zeta. split; [vm_compute; reflexivity|]. split; [vm_compute; reflexivity|]. eexists. vm_compute. reflexivity. Qed.
Example c76_peers_ex : let s := drun ex_daemon (start ex_tree) ex_run in
  map (fun p => (p_addr p, p_eid p)) (w_peers (ds_world s)) = [("fe80::1", "other"); ("10.0.0.1", "other")] /\
  (forall l, In l ex_run -> good_label l).
Proof.
  cbv zeta. split; [vm_compute; reflexivity|].
  intros l I. unfold ex_run in I. cbn [In] in I. decompose [or] I; try contradiction; subst l; cbn [good_label]; unfold good_now, ex_now, ex_later; cbn; lia.
Qed.
Definition ex_req_dgram (ty : N) (name : string) : list byte := request_wire (0x210F0000 + ty) 5 name [].
Example c57_taken_ex : let s := drun ex_daemon (start ex_tree) [Datagram V4 ex_now (ex_req_dgram 1 "f") ex_from] in
  (exists r, ds_listener s V4 = LRx {| pk_addr := ex_from; pk_info := FRequest r |}) /\ ds_dead s = false /\
  ds_dead (drun ex_daemon s [Meet (GListen V4) GMain ex_now]) = true.
Proof. cbv zeta. split; [eexists; vm_compute; reflexivity|]. split; vm_compute; reflexivity. Qed.
(** read as intended, the deletion is carried out and then main is stuck *)
Example c59_blocked_ex :
  let su := daemon_reading "epoch2000_32" 1500 [] "/Users/chas/sardir" in
  let s := drun su (start ex_tree) [Datagram V4 ex_now (ex_req_dgram 5 "f") ex_from; Meet (GListen V4) GMain ex_now] in
  (exists p, ds_main s = MSend V4 p) /\ ds_dead s = false /\ file_exists (w_fs (ds_world s)) [] "/Users/chas/sardir" "f" = false /\
  reachable su s.
Proof.
  cbv zeta. split; [eexists; vm_compute; reflexivity|]. split; [vm_compute; reflexivity|]. split; [vm_compute; reflexivity|].
  eexists. eexists. reflexivity.
Qed.
(** read as intended, a get is recorded *)
Example c58_main_ex :
  let su := daemon_reading "epoch2000_32" 1500 [] "/Users/chas/sardir" in
  let s := drun su (start ex_tree) [Datagram V4 ex_now (ex_req_dgram 1 "f") ex_from] in
  (exists r, ds_listener s V4 = LRx {| pk_addr := ex_from; pk_info := FRequest r |}) /\ ds_dead s = false /\
  map rt_ttype (w_transfers (ds_world (drun su s [Meet (GListen V4) GMain ex_now]))) = ["get"].
Proof. cbv zeta. split; [eexists; vm_compute; reflexivity|]. split; vm_compute; reflexivity. Qed.
Example c139_ex : (forall l, In l ex_run -> good_label l /\ harmless 1500 l) /\
  lethal 1500 (ex_req_dgram 1 "f") /\ reachable ex_daemon (drun ex_daemon (start ex_tree) ex_run) /\
  ds_listener (drun ex_daemon (start ex_tree) ex_run) V6 = LRead.
Proof.
  split.
  { intros l I. split; [apply c76_peers_ex; exact I|]. unfold ex_run in I. cbn [In] in I.
    decompose [or] I; try contradiction; subst l; cbn [harmless]; try exact Logic.I; vm_compute; intuition discriminate. }
  split; [left; vm_compute; reflexivity|]. split; [exists ex_tree, ex_run; reflexivity|vm_compute; reflexivity].
Qed.
