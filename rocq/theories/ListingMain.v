(** * The peers command while beacons arrive: the properties (proofs) *)

From Verif Require Import GoBase Flags Config Shipped Timestamp Data Beacon Fileio Sarnet Transfer Words Clock SpecFlags SpecWire SpecFrames SpecPeers SpecClock SpecTable SarFacts ShowMain Table TableFacts TableMain PeersMain Listing SpecListing ListingFacts.
From Coq Require Import Lia Permutation.
Local Open Scope string_scope.
Local Open Scope N_scope.

(** ** Running without writes *)
Fixpoint pure {A} (m : looks A) (ps : list peer) : outcome A :=
  match m with Stop o => o | Look k => pure (k ps) ps end.
Lemma pure_bind : forall {A B} (m : looks A) (f : A -> looks B) ps, pure (lbind m f) ps = (do a <- pure m ps; pure (f a) ps).
Proof. intros A B m f ps. induction m as [[a| |]|k IH]; cbn; auto. Qed.
Lemma quiet_pure : forall {A} (m : looks A) sched ps, concat sched = [] -> exists sched', interleave m sched ps = (pure m ps, (sched', ps)).
Proof.
  intros A m. induction m as [o|k IH]; intros sched ps E; [exists sched; reflexivity|]. cbn [interleave pure].
  assert (H : hd [] sched = [] /\ concat (tl sched) = []).
  { destruct sched as [|b sched]; [auto|]. cbn in *. apply app_eq_nil in E. exact E. }
  destruct H as [-> H]. apply IH, H.
Qed.
Lemma pause : forall {A} (m : looks A) ps, exists n, forall sched, interleave m (repeat [] n ++ sched) ps = (pure m ps, (sched, ps)).
Proof.
  intros A m. induction m as [o|k IH]; intros ps; [exists 0%nat; reflexivity|]. destruct (IH ps ps) as (n & H). exists (S n). intros sched. cbn. apply H.
Qed.
Lemma interleave_bind : forall {A B} (m : looks A) (f : A -> looks B) sched ps, interleave (lbind m f) sched ps =
  match interleave m sched ps with
  | (Ret a, (sched', ps')) => interleave (f a) sched' ps'
  | (Panic, e) => (Panic, e)
  | (Fatal, e) => (Fatal, e)
  end.
Proof. intros A B m f. induction m as [[a| |]|k IH]; intros; cbn; auto. Qed.

Lemma pure_at : forall {A} (f : peer -> A) pre p post, pure (look_at (List.length pre) f) (pre ++ p :: post) = Ret (f p).
Proof. intros. cbn. rewrite nth_app. reflexivity. Qed.
Lemma pure_time : forall f pre p post, pure (look_time (List.length pre) f) (pre ++ p :: post) = ts_print (f p).
Proof.
  intros. unfold look_time. do 5 (rewrite pure_bind, pure_at; cbn [obind]). cbn [pure]. destruct (f p). reflexivity.
Qed.
Lemma pure_longer : forall n text ps s, pure text ps = Ret s -> pure (look_longer n text) ps = Ret (longer n s).
Proof.
  intros n text ps s H. unfold look_longer, longer. rewrite pure_bind, H. cbn [obind]. destruct (n <? slen s)%nat; [|reflexivity].
  rewrite pure_bind, H. reflexivity.
Qed.
Lemma pure_widths : forall seg pre post E w, peer_times seg = Ret E ->
  pure (look_widths (List.length pre) (List.length seg) w) (pre ++ seg ++ post) = Ret (peer_widths w E).
Proof.
  induction seg as [|p seg IH]; intros pre post E w H; cbn [peer_times] in H.
  { injection H as <-. reflexivity. }
  destruct (ts_print (p_created p)) as [c| |] eqn:EC; cbn [obind] in H; try discriminate.
  destruct (ts_print (p_updated p)) as [u| |] eqn:EU; cbn [obind] in H; try discriminate.
  destruct (peer_times seg) as [E'| |] eqn:ES; cbn [obind] in H; try discriminate. injection H as <-.
  cbn [List.length look_widths app peer_widths]. set (T := (pre ++ p :: seg ++ post)%list).
  rewrite pure_bind, (pure_longer _ _ T (p_addr p)) by apply pure_at. cbn [obind].
  rewrite pure_bind, (pure_longer _ _ T (p_eid p)) by apply pure_at. cbn [obind].
  rewrite pure_bind, (pure_longer _ _ T (p_canrx p)) by apply pure_at. cbn [obind].
  rewrite pure_bind, (pure_longer _ _ T (p_cantx p)) by apply pure_at. cbn [obind].
  rewrite pure_bind, (pure_longer _ _ T c) by (unfold T; rewrite pure_time; exact EC). cbn [obind].
  rewrite pure_bind. unfold T at 1. rewrite pure_time, EC. cbn [obind].
  rewrite pure_bind.
  replace (pure (if (pw_mod w <? slen c)%nat then look u <- look_time (List.length pre) p_updated; Stop (Ret (slen u)) else Stop (Ret (pw_mod w))) T)
    with (Ret (if (pw_mod w <? slen c)%nat then slen u else pw_mod w)).
  2:{ destruct (pw_mod w <? slen c)%nat; [|reflexivity]. rewrite pure_bind. unfold T. rewrite pure_time, EU. reflexivity. }
  cbn [obind]. specialize (IH (pre ++ [p])%list post E' {| pw_addr := longer (pw_addr w) (p_addr p); pw_eid := longer (pw_eid w) (p_eid p); pw_cre := longer (pw_cre w) c;
     pw_mod := if (pw_mod w <? slen c)%nat then slen u else pw_mod w; pw_tx := longer (pw_tx w) (p_cantx p); pw_rx := longer (pw_rx w) (p_canrx p) |} eq_refl).
  rewrite app_length in IH. cbn [List.length] in IH. rewrite Nat.add_1_r, <- app_assoc in IH. exact IH.
Qed.
Definition line_in (ws : list nat) (e : peer * string * string) : string := table_row "|" ws (peer_fields e).
Lemma pure_rows : forall seg pre post E ws, peer_times seg = Ret E ->
  pure (look_rows ws (List.length pre) (List.length seg)) (pre ++ seg ++ post) = Ret (map (line_in ws) E).
Proof.
  induction seg as [|p seg IH]; intros pre post E w H; cbn [peer_times] in H.
  { injection H as <-. reflexivity. }
  destruct (ts_print (p_created p)) as [c| |] eqn:EC; cbn [obind] in H; try discriminate.
  destruct (ts_print (p_updated p)) as [u| |] eqn:EU; cbn [obind] in H; try discriminate.
  destruct (peer_times seg) as [E'| |] eqn:ES; cbn [obind] in H; try discriminate. injection H as <-.
  cbn [List.length look_rows app map]. rewrite pure_bind. unfold look_row.
  do 6 (rewrite pure_bind, pure_at; cbn [obind]). rewrite pure_bind, pure_time, EC. cbn [obind]. rewrite pure_bind, pure_time, EU. cbn [obind pure].
  specialize (IH (pre ++ [p])%list post E' w eq_refl). rewrite app_length in IH. cbn [List.length] in IH. rewrite Nat.add_1_r, <- app_assoc in IH. cbn [app] in IH.
  rewrite pure_bind, IH. reflexivity.
Qed.

(** C153: what the main loop writes while a history of beacons arrives is, when all of it is done, what registering the
    beacons one after the other does. *)
Lemma c153_writes : forall ps hist, (forall s, In s hist -> good_now (sg_now s)) -> (forall p, In p ps -> timed_peer p) ->
  exists ws ps' reps, history_writes ps hist = Ret ws /\ register_all ps hist = Ret (ps', reps) /\ do_writes ps ws = ps'.
Proof.
  intros ps hist G TP. destruct (history_path ps hist G hist [] ps [] eq_refl eq_refl (start_ok ps hist TP)) as (W & T' & reps' & H & _ & R & D).
  exists W, T', reps'. auto.
Qed.

(** C153: whenever the beacons arrive, before, between and after the looks of the command at the table: the command ends, and what
    it shows is made of what was there and what the beacons said. *)
Lemma c153_shown : forall ps hist ws sched rest,
  (forall s, In s hist -> good_now (sg_now s)) -> (forall p, In p ps -> timed_peer p) ->
  history_writes ps hist = Ret ws -> ws = (concat sched ++ rest)%list ->
  exists text, fst (interleave peers_shown sched ps) = Ret text /\ listing_seen ps hist text.
Proof.
  intros ps hist ws sched rest G TP HW E.
  destruct (history_path ps hist G hist [] ps [] eq_refl eq_refl (start_ok ps hist TP)) as (W & T' & reps' & H & P & _).
  assert (W = ws) by congruence. subst W. destruct (path_good _ _ _ _ _ P) as (k & _ & GS & PK).
  destruct (wp_run ps hist peers_shown (k, ps, ws) (fun _ text => listing_seen ps hist text) sched rest) as (text & c' & sched' & R & L).
  - split; assumption.
  - exact E.
  - apply wp_shown. split; assumption.
  - exists text. cbn [st fst snd] in R. rewrite R. auto.
Qed.

(** C153: if nothing arrives, it is the table of C103. *)
Lemma c153_quiet : forall ps sched, (forall p, In p ps -> timed_peer p) -> concat sched = [] ->
  fst (interleave peers_shown sched ps) = match ps with [] => Ret "No Peers" | _ => peers_text ps end.
Proof.
  intros ps sched TP E. destruct (quiet_pure peers_shown sched ps E) as (s & ->). cbn [fst].
  destruct ps as [|p ps']; [reflexivity|]. set (ps := p :: ps') in *. destruct (times_of ps TP) as (l & TL & _).
  unfold peers_text. rewrite TL. cbn [obind]. unfold peers_shown, ps. cbn [pure]. fold ps.
  pose proof (pure_widths ps [] [] l {| pw_addr := 0; pw_eid := 0; pw_cre := 0; pw_mod := 0; pw_tx := 0; pw_rx := 0 |} TL) as PW.
  cbn [List.length app] in PW. rewrite app_nil_r in PW. rewrite pure_bind, PW. cbn [obind]. cbv zeta. cbn [pure].
  set (ws := peer_columns _). pose proof (pure_rows ps [] [] l ws TL) as PR. cbn [List.length app] in PR. rewrite app_nil_r in PR.
  rewrite pure_bind, PR. reflexivity.
Qed.

(** ** A mixture *)
Lemma rows_app : forall a b ws i sched ps, interleave (look_rows ws i (a + b)) sched ps =
  interleave (look x <- look_rows ws i a; look y <- look_rows ws (i + a) b; Stop (Ret (x ++ y)%list)) sched ps.
Proof.
  induction a as [|a IH]; intros b ws i sched ps; cbn [Nat.add look_rows].
  - cbn [lbind]. rewrite interleave_bind, Nat.add_0_r. destruct (interleave (look_rows ws i b) sched ps) as [[y| |] [s T]]; reflexivity.
  - rewrite !interleave_bind. destruct (interleave (look_row ws i) sched ps) as [[x| |] [s T]]; try reflexivity.
    rewrite !interleave_bind, IH. rewrite !interleave_bind. replace (i + S a)%nat with (S i + a)%nat by lia.
    destruct (interleave (look_rows ws (S i) a) s T) as [[y| |] [s' T']]; try reflexivity.
    rewrite !interleave_bind. cbn [interleave]. rewrite !interleave_bind.
    destruct (interleave (look_rows ws (S i + a) b) s' T') as [[z| |] [s'' T'']]; reflexivity.
Qed.
Lemma look_step : forall {A B} (f : peer -> A) (k : A -> looks B) l e e' r batch sched, do_writes (l ++ e :: r) batch = (l ++ e' :: r)%list ->
  interleave (lbind (look_at (List.length l) f) k) (batch :: sched) (l ++ e :: r) = interleave (k (f e')) sched (l ++ e' :: r).
Proof. intros A B f k l e e' r batch sched D. rewrite interleave_bind. cbn [look_at interleave hd tl]. rewrite D, nth_app. reflexivity. Qed.

Definition when (b : bool) (w : write) : list write := if b then [w] else [].
Definition mixed_schedule (c : choice) (i : nat) (q : peer) : list (list write) :=
  let t := p_updated q in
  let w1 := SetFreespace i (p_freespace q) in let w2 := SetEid i (p_eid q) in let w3 := SetMaxdesc i (p_maxdesc q) in
  let w4 := SetCanrx i (p_canrx q) in let w5 := SetCantx i (p_cantx q) in
  [ []; when (new_free c) w1; when (negb (new_free c)) w1 ++ when (new_eid c) w2; when (negb (new_eid c)) w2 ++ when (new_desc c) w3;
    when (negb (new_desc c)) w3 ++ when (new_rx c) w4; when (negb (new_rx c)) w4 ++ when (new_tx c) w5;
    when (negb (new_tx c)) w5; []; []; []; [];
    []; SetHeader i (t_header t) :: when (new_secs c) (SetSecs i (t_secs t));
    when (negb (new_secs c)) (SetSecs i (t_secs t)) ++ SetType i (t_ttype t) :: when (new_nanos c) (SetNsecs i (t_nsecs t)); []; [] ]%list.
Definition mixed_rest (c : choice) (i : nat) (q : peer) : list write :=
  (when (negb (new_nanos c)) (SetNsecs i (t_nsecs (p_updated q))) ++ [SetLocal i (t_local (p_updated q))])%list.
Lemma mixed_all : forall c i q, (concat (mixed_schedule c i q) ++ mixed_rest c i q)%list = entry_writes i q.
Proof. intros [[] [] [] [] [] [] []] i q; reflexivity. Qed.

Definition mixed c a f e d x y cr u v f' e' d' x' y' s : peer :=
  entry a (if new_free c then f' else f) (if new_eid c then e' else e) (if new_desc c then d' else d) (if new_rx c then x' else x)
    (if new_tx c then y' else y) cr (if new_secs c then s else u) (if new_nanos c then s else v).
Lemma mixed_row : forall c l r ws a f e d x y cr u v f' e' d' x' y' s cre upd,
  let m := mixed c a f e d x y cr u v f' e' d' x' y' s in
  ts_print (p_created m) = Ret cre -> ts_print (p_updated m) = Ret upd ->
  exists z, p_addr z = a /\ forall sched,
    interleave (look_row ws (List.length l)) (mixed_schedule c (List.length l) (entry a f' e' d' x' y' cr s s) ++ sched) (l ++ entry a f e d x y cr u v :: r) =
    (Ret (line_in ws (m, cre, upd)), (sched, (l ++ z :: r)%list)).
Proof.
  intros c l r ws a f e d x y cr u v f' e' d' x' y' s cre upd m EC EU.
  exists (entry a f' e' d' x' y' cr s (if new_nanos c then s else v)). split; [reflexivity|]. intros sched.
  unfold look_row, mixed_schedule. cbn [app]. unfold when.
  rewrite (look_step _ _ l _ (entry a f e d x y cr u v)) by reflexivity.
  rewrite (look_step _ _ l _ (entry a (if new_free c then f' else f) e d x y cr u v)).
  2:{ destruct (new_free c); [one_write; reflexivity|reflexivity]. }
  rewrite (look_step _ _ l _ (entry a f' (if new_eid c then e' else e) d x y cr u v)).
  2:{ destruct (new_free c), (new_eid c); cbn [negb app]; repeat one_write; reflexivity. }
  rewrite (look_step _ _ l _ (entry a f' e' (if new_desc c then d' else d) x y cr u v)).
  2:{ destruct (new_eid c), (new_desc c); cbn [negb app]; repeat one_write; reflexivity. }
  rewrite (look_step _ _ l _ (entry a f' e' d' (if new_rx c then x' else x) y cr u v)).
  2:{ destruct (new_desc c), (new_rx c); cbn [negb app]; repeat one_write; reflexivity. }
  rewrite (look_step _ _ l _ (entry a f' e' d' x' (if new_tx c then y' else y) cr u v)).
  2:{ destruct (new_rx c), (new_tx c); cbn [negb app]; repeat one_write; reflexivity. }
  rewrite interleave_bind. unfold look_time at 1.
  rewrite (look_step _ _ l _ (entry a f' e' d' x' y' cr u v)).
  2:{ destruct (new_tx c); cbn [negb]; repeat one_write; reflexivity. }
  do 4 (rewrite (look_step _ _ l _ (entry a f' e' d' x' y' cr u v)) by reflexivity).
  cbn [interleave]. change {| t_header := _; t_secs := _; t_nsecs := _; t_local := _; t_ttype := _ |} with (p_created m). rewrite EC.
  rewrite interleave_bind. unfold look_time at 1.
  rewrite (look_step _ _ l _ (entry a f' e' d' x' y' cr u v)) by reflexivity.
  rewrite (look_step _ _ l _ (entry a f' e' d' x' y' cr (if new_secs c then s else u) v)).
  2:{ destruct (new_secs c); cbn [negb]; repeat one_write; reflexivity. }
  rewrite (look_step _ _ l _ (entry a f' e' d' x' y' cr s (if new_nanos c then s else v))).
  2:{ destruct (new_secs c), (new_nanos c); cbn [negb app]; repeat one_write; reflexivity. }
  do 2 (rewrite (look_step _ _ l _ (entry a f' e' d' x' y' cr s (if new_nanos c then s else v))) by reflexivity).
  cbn [interleave].
  replace (ts_print _) with (Ret (A := string) upd).
  cbn [interleave]. reflexivity.
Qed.

(** C153 (defect): while one beacon changes one entry, the command can show every mixture of the old and the new members of the entry,
    down to the seconds of one time with the nanoseconds of the other; the columns are still those for the old entry. *)
Lemma c153_mixture : forall l p r s, let ps := (l ++ p :: r)%list in
  (forall p, In p ps -> timed_peer p) -> good_now (sg_now s) ->
  sg_from s = Some (p_addr p) -> ~ In (p_addr p) (map p_addr l) -> ~ shows p (sg_beacon s) ->
  forall c : choice, exists ws q m sched rest text head rows,
    register_all ps [s] = Ret ((l ++ q :: r)%list, [true]) /\ shows q (sg_beacon s) /\ p_updated q = stamp_at (sg_now s) /\
    mixture c p q m /\
    history_writes ps [s] = Ret ws /\ ws = (concat sched ++ rest)%list /\
    fst (interleave peers_shown sched ps) = Ret text /\
    text = table_text (border_of "+" (peer_widths_of ps)) head rows /\
    row_of "|" (peer_widths_of ps) ["IP"; "GB"; "EID"; "Des"; "Rx"; "Tx"; "Created"; "Modified"] head /\ ordered rows /\
    (exists order, Permutation order (l ++ m :: r) /\ Forall2 (row_of_peer (peer_widths_of ps)) order rows) /\
    (forall n, columns (bytes_of (p_eid m)) n -> (Nat.max 3 (longest (map p_eid ps)) < n)%nat ->
       ~ aligned (border_of "+" (peer_widths_of ps) :: rows)).
Proof.
  intros l p r s ps TP GN FR NI NS c.
  assert (TPP : timed_peer p) by (apply TP, in_app_iff; right; left; reflexivity).
  destruct TPP as (cr & u & GC & GU & EC & EU).
  destruct (beacon_writes_cases (sg_now s) ps (sg_beacon s) (p_addr p) GN) as [(NI' & _)|(l' & p' & r' & E & N' & A' & _ & B)].
  { exfalso. apply NI'. unfold ps. rewrite map_app, in_app_iff. right. left. reflexivity. }
  assert (Q : l' = l /\ p' = p /\ r' = r).
  { clear - E N' A' NI. unfold ps in E. revert l' E N'. induction l as [|z l IH]; intros [|z' l'] E N'; cbn [app] in E.
    - injection E as E1 E2. auto.
    - injection E as E1 E2. exfalso. apply N'. left. congruence.
    - injection E as E1 E2. exfalso. apply NI. left. congruence.
    - injection E as E1 E. destruct (IH (fun h => NI (or_intror h)) l' E (fun h => N' (or_intror h))) as (-> & -> & ->). subst. auto. }
  destruct Q as (-> & -> & ->). clear E N' A'. destruct (B NS) as [BW NP]. clear B.
  set (q := shown (sg_now s) p (sg_beacon s)) in *.
  pose (f' := b_freespace (sg_beacon s)). pose (e' := b_eid (sg_beacon s)). pose (d' := desc_name (hd_descriptor (b_header (sg_beacon s)))).
  pose (x' := will_name (hd_rx (b_header (sg_beacon s)))). pose (y' := will_name (hd_tx (b_header (sg_beacon s)))).
  pose (m := mixed c (p_addr p) (p_freespace p) (p_eid p) (p_maxdesc p) (p_canrx p) (p_cantx p) cr u u f' e' d' x' y' (sg_now s)).
  assert (EP : p = entry (p_addr p) (p_freespace p) (p_eid p) (p_maxdesc p) (p_canrx p) (p_cantx p) cr u u).
  { clear - EC EU. destruct p. cbn in *. subst. reflexivity. }
  assert (EQ : q = entry (p_addr p) f' e' d' x' y' cr (sg_now s) (sg_now s)).
  { unfold q, shown, entry. rewrite EC. destruct (sg_now s). reflexivity. }
  assert (TM : timed_peer m).
  { exists cr, {| unix_secs := unix_secs (if new_secs c then sg_now s else u); unix_nanos := unix_nanos (if new_nanos c then sg_now s else u) |}.
    split; [exact GC|]. split; [|split; reflexivity]. destruct (new_secs c), (new_nanos c); destruct GU, GN; split; assumption. }
  assert (TL : forall z, In z (l ++ m :: r)%list -> timed_peer z).
  { intros z I. apply in_app_iff in I. destruct I as [I|[<-|I]]; [apply TP, in_app_iff; auto|exact TM|apply TP, in_app_iff; right; right; exact I]. }
  assert (TLl : forall z, In z l -> timed_peer z) by (intros; apply TL, in_app_iff; auto).
  assert (TLr : forall z, In z r -> timed_peer z) by (intros; apply TL, in_app_iff; right; right; auto).
  destruct (times_of l TLl) as (El & TEl & Ml & Fl). destruct (times_of r TLr) as (Er & TEr & Mr & Fr).
  destruct (times_of [m]) as (Em & TEm & Mm & Fm). { intros z [<-|[]]. exact TM. }
  destruct (times_of ps TP) as (Eps & TEps & Mps & Fps).
  cbn [peer_times] in TEm. destruct (ts_print (p_created m)) as [cre| |] eqn:PC; cbn [obind] in TEm; try discriminate.
  destruct (ts_print (p_updated m)) as [upd| |] eqn:PU; cbn [obind] in TEm; try discriminate. injection TEm as <-.
  set (ws := peer_widths_of ps).
  assert (W : peer_columns (peer_widths {| pw_addr := 0; pw_eid := 0; pw_cre := 0; pw_mod := 0; pw_tx := 0; pw_rx := 0 |} Eps) = ws).
  { unfold ws. rewrite <- Mps at 1. apply columns_right; [eapply Forall_impl; [|exact Fps]; cbv beta; tauto|]. intros ->. cbn in Mps. unfold ps in Mps. destruct l; discriminate. }
  set (w0 := {| pw_addr := 0; pw_eid := 0; pw_cre := 0; pw_mod := 0; pw_tx := 0; pw_rx := 0 |}) in *.
  destruct (pause (look_widths 0 (List.length ps) w0) ps) as (n1 & P1).
  pose proof (pure_widths ps [] [] Eps w0 TEps) as PW. cbn [List.length app] in PW. rewrite app_nil_r in PW.
  destruct (pause (look_rows ws 0 (List.length l)) ps) as (n2 & P2).
  pose proof (pure_rows l [] (p :: r) El ws TEl) as PL. cbn [List.length app] in PL. fold ps in PL.
  set (special := mixed_schedule c (List.length l) q).
  assert (ROW : exists z, p_addr z = p_addr p /\ forall sched, interleave (look_row ws (List.length l)) (special ++ sched) ps = (Ret (line_in ws (m, cre, upd)), (sched, (l ++ z :: r)%list))).
  { pose proof (mixed_row c l r ws (p_addr p) (p_freespace p) (p_eid p) (p_maxdesc p) (p_canrx p) (p_cantx p) cr u u f' e' d' x' y' (sg_now s) cre upd PC PU) as MR.
    rewrite <- EP, <- EQ in MR. exact MR. }
  destruct ROW as (z & AZ & ROW).
  destruct (pause (look_rows ws (S (List.length l)) (List.length r)) (l ++ z :: r)%list) as (n3 & P3).
  assert (PR : pure (look_rows ws (S (List.length l)) (List.length r)) (l ++ z :: r)%list = Ret (map (line_in ws) Er)).
  { pose proof (pure_rows r (l ++ [z])%list [] Er ws TEr) as X. rewrite app_length, app_nil_r, <- app_assoc in X. cbn [List.length app] in X. rewrite Nat.add_1_r in X. exact X. }
  pose (sched := ([[]; []] ++ repeat [] n1 ++ [[]] ++ repeat [] n2 ++ special ++ repeat [] n3)%list).
  pose (E := (El ++ (m, cre, upd) :: Er)%list).
  assert (RUN : fst (interleave peers_shown sched ps) = Ret (table_text (border_of "+" ws) (table_row "|" ws peer_titles) (sort_strings (map (line_in ws) E)))).
  { unfold peers_shown, sched. cbn [app interleave hd tl]. change (do_writes ps []) with ps.
    assert (MAT : forall {A} (a b : A), match ps with [] => a | _ => b end = b) by (intros; unfold ps; destruct l; reflexivity).
    rewrite MAT. cbn [interleave hd tl]. change (do_writes ps []) with ps.
    rewrite interleave_bind, P1, PW. cbv zeta. rewrite W. cbn [interleave hd tl app]. change (do_writes ps []) with ps.
    rewrite interleave_bind. replace (List.length ps) with (List.length l + S (List.length r))%nat by (unfold ps; rewrite app_length; reflexivity).
    rewrite rows_app, interleave_bind, P2, PL. cbn [Nat.add look_rows]. rewrite interleave_bind, interleave_bind, ROW.
    rewrite interleave_bind. rewrite <- (app_nil_r (repeat [] n3)), P3, PR. cbn [interleave fst]. rewrite border_row. unfold E. rewrite map_app. reflexivity. }
  assert (CN : forall n, concat (repeat (@nil write) n) = []) by (induction n; [reflexivity|assumption]).
  exists (entry_writes (List.length l) q), q, m, sched, (mixed_rest c (List.length l) q),
    (table_text (border_of "+" ws) (table_row "|" ws peer_titles) (sort_strings (map (line_in ws) E))), (table_row "|" ws peer_titles), (sort_strings (map (line_in ws) E)).
  split. { cbn [register_all]. rewrite FR, NP. reflexivity. }
  split. { apply shows_eq. repeat split; reflexivity. }
  split; [reflexivity|].
  split. { unfold mixture. rewrite EU, EC. unfold m, mixed, q. cbn [entry shown p_addr p_created p_freespace p_eid p_maxdesc p_canrx p_cantx p_updated].
    repeat (split; [try reflexivity; destruct (new_secs c), (new_nanos c); try rewrite EU; reflexivity|]). reflexivity. }
  split. { cbn [history_writes]. rewrite FR, BW. cbn [obind]. rewrite app_nil_r. reflexivity. }
  split. { unfold sched. rewrite !concat_app, !CN. cbn [concat app]. rewrite app_nil_r. symmetry. apply mixed_all. }
  split; [exact RUN|]. split; [reflexivity|]. split; [apply table_row_row; reflexivity|]. split; [apply sorted_ordered, sort_sorted|].
  split.
  2:{ intros n CN' LT AL. apply columns_rune in CN'. subst n.
      assert (AL' : aligned (border_of "+" ws :: map (table_row "|" ws) (map peer_fields E))).
      { destruct AL as (k & AL). exists k. intros line [I|I]; [apply AL; left; exact I|]. apply AL. right. rewrite map_map in I.
        eapply Permutation_in; [symmetry; apply sort_perm|exact I]. }
      apply aligned_iff in AL'; [|reflexivity|reflexivity|].
      - rewrite Forall_forall in AL'. specialize (AL' (peer_fields (m, cre, upd))). unfold fits in AL'. rewrite Forall_forall in AL'.
        assert (X : (rune_count (p_eid m) <= Nat.max 3 (longest (map p_eid ps)))%nat); [|lia].
        apply (AL' (in_map _ _ _ (in_elt _ _ _)) (Nat.max 3 (longest (map p_eid ps)), p_eid m)). right. right. left. reflexivity.
      - apply Forall_forall. intros fs I. apply in_map_iff in I. destruct I as ([[p0 c0] u0] & <- & _). reflexivity. }
  destruct (perm_map_split _ _ _ (sort_perm (map (line_in ws) E))) as (E' & PE & ->). exists (map (fun e => fst (fst e)) E'). split.
  - replace (l ++ m :: r)%list with (map (fun e : peer * string * string => fst (fst e)) E) by (unfold E; rewrite map_app; cbn [map fst]; rewrite Ml, Mr; reflexivity).
    apply Permutation_map, PE.
  - assert (F : Forall (fun e => timed e /\ utc_text true (instant (p_created (fst (fst e)))) (snd (fst e)) /\ utc_text true (instant (p_updated (fst (fst e)))) (snd e)) E').
    { apply Forall_forall. intros e I. assert (I' : In e E) by (eapply Permutation_in; eauto). unfold E in I'.
      rewrite Forall_forall in Fl, Fr, Fm. apply in_app_iff in I'. destruct I' as [I'|[I'|I']]; [apply Fl, I'|apply Fm; left; exact I'|apply Fr, I']. }
    clear - F. induction F as [|e E' (T & U1 & U2) F IH]; [constructor|]. cbn [map]. constructor; [|exact IH].
    destruct e as [[p0 cre0] upd0]. cbn [fst snd] in *. exists cre0, upd0. split; [exact U1|]. split; [exact U2|].
    unfold line_in. change (2 ^ 20) with (1024 * 1024). rewrite <- N.div_div by lia. apply table_row_row. reflexivity.
Qed.

(** C153: the hypothesis on the table holds of every table that beacons have made. *)
Lemma c153_timed : forall hist, (forall s, In s hist -> good_now (sg_now s)) ->
  exists ps reps, register_all [] hist = Ret (ps, reps) /\ forall p, In p ps -> timed_peer p.
Proof.
  intros hist G. destruct (c41_history hist G) as (ps & reps & R & _ & _ & RE & _). exists ps, reps. split; [exact R|]. intros p I.
  destruct (RE p I) as (lt & rest & c & S & _ & C & LC & U). exists (sg_now (last rest lt)), (sg_now c).
  assert (SEEN : forall x, In x (seen (p_addr p) hist) -> good_now (sg_now x)).
  { intros x X. apply G. unfold seen in X. apply in_rev in X. apply filter_In in X. tauto. }
  split; [apply SEEN; rewrite S; apply last_in|]. split; [apply SEEN, last_change_in, LC|]. auto.
Qed.

(** ** Concrete cases *)
Definition ex_old : sighting := {| sg_now := {| unix_secs := 1700000000; unix_nanos := 5 |}; sg_beacon := {| b_header := 0x20405000; b_freespace := 5 * 2 ^ 20; b_eid := "ab" |}; sg_from := Some "10.0.0.1" |}.
Definition ex_new : sighting := {| sg_now := {| unix_secs := 1700000060; unix_nanos := 70 |}; sg_beacon := {| b_header := 0x204FA000; b_freespace := 9 * 2 ^ 20; b_eid := "longer" |}; sg_from := Some "10.0.0.1" |}.
Definition ex_else : sighting := {| sg_now := {| unix_secs := 1700000061; unix_nanos := 0 |}; sg_beacon := {| b_header := 0x204FA000; b_freespace := 2 ^ 20; b_eid := "z" |}; sg_from := Some "10.0.0.2" |}.
Definition ex_table : list peer := [fresh_peer (sg_now ex_old) (sg_beacon ex_old) "10.0.0.1"].
Lemma ex_timed : forall p, In p ex_table -> timed_peer p.
Proof.
  intros p [<-|[]]. exists (sg_now ex_old), (sg_now ex_old). split; [unfold good_now; cbn; lia|]. split; [unfold good_now; cbn; lia|]. split; reflexivity.
Qed.
Lemma ex_good : forall s, In s [ex_new; ex_else] -> good_now (sg_now s).
Proof. intros s [<-|[<-|[]]]; unfold good_now; cbn; lia. Qed.
Example c153_timed_ex : register_all [] [ex_old] = Ret (ex_table, [true]).
Proof. vm_compute. reflexivity. Qed.
Example c153_writes_ex : exists ws, history_writes ex_table [ex_new; ex_else] = Ret ws /\ List.length ws = 11%nat /\ List.length (do_writes ex_table ws) = 2%nat.
Proof. eexists. split; [vm_compute; reflexivity|]. split; vm_compute; reflexivity. Qed.
(** The other peer arrives when the first row has been read: it has no row. *)
Example c153_shown_ex : (forall p, In p ex_table -> timed_peer p) /\ (forall s, In s [ex_else] -> good_now (sg_now s)) /\
  exists w text, history_writes ex_table [ex_else] = Ret [w] /\
    fst (interleave peers_shown (repeat [] 40 ++ [[w]]) ex_table) = Ret text /\ peers_text ex_table = Ret text /\
    fst (interleave peers_shown [[w]] ex_table) <> Ret text.
Proof.
  split; [exact ex_timed|]. split; [intros s [<-|[]]; unfold good_now; cbn; lia|]. eexists. eexists. split; [vm_compute; reflexivity|].
  split; [vm_compute; reflexivity|]. split; [vm_compute; reflexivity|]. vm_compute. discriminate.
Qed.
Example c153_quiet_ex : fst (interleave peers_shown [[]; []; []] ex_table) = peers_text ex_table /\ fst (interleave peers_shown [] []) = Ret "No Peers" /\
  exists text, peers_text ex_table = Ret text.
Proof. split; [vm_compute; reflexivity|]. split; [reflexivity|]. eexists. vm_compute. reflexivity. Qed.
(** The free space of the new beacon and the endpoint of the old one *)
Definition ex_choice : choice := {| new_free := true; new_eid := false; new_desc := true; new_rx := false; new_tx := true; new_secs := true; new_nanos := false |}.
Example c153_mixture_ex : ~ shows (hd (fresh_peer (sg_now ex_old) (sg_beacon ex_old) "") ex_table) (sg_beacon ex_new) /\
  exists m, mixture ex_choice (fresh_peer (sg_now ex_old) (sg_beacon ex_old) "10.0.0.1") (fresh_peer (sg_now ex_new) (sg_beacon ex_new) "10.0.0.1") m /\
    p_freespace m / 2 ^ 20 = 9 /\ p_eid m = "ab" /\ t_secs (p_updated m) = 1700000060 /\ t_nsecs (p_updated m) = 5.
Proof.
  split; [intros (H & _); discriminate|].
  exists {| p_addr := "10.0.0.1"; p_freespace := 9 * 2 ^ 20; p_eid := "ab"; p_maxdesc := p_maxdesc (fresh_peer (sg_now ex_new) (sg_beacon ex_new) ""); p_canrx := p_canrx (fresh_peer (sg_now ex_old) (sg_beacon ex_old) "");
    p_cantx := p_cantx (fresh_peer (sg_now ex_new) (sg_beacon ex_new) "");
    p_created := stamp_at (sg_now ex_old); p_updated := stamp_at {| unix_secs := 1700000060; unix_nanos := 5 |} |}.
  unfold mixture. repeat split; vm_compute; reflexivity.
Qed.
