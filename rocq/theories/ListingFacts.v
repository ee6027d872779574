(** * The peers command while beacons arrive: facts *)

From Verif Require Import GoBase Flags Config Shipped Timestamp Data Beacon Fileio Sarnet Transfer Words Clock SpecFlags SpecWire SpecFrames SpecPeers SpecClock SpecTable SarFacts ShowMain Table TableFacts TableMain PeersMain Listing SpecListing.
From Coq Require Import Lia Permutation.
Local Open Scope string_scope.
Local Open Scope N_scope.

Lemma forall2_flip : forall {A B} (R : A -> B -> Prop) l m, Forall2 R l m -> Forall2 (fun b a => R a b) m l.
Proof. intros A B R l m H. induction H; constructor; auto. Qed.

(** ** Writes *)
Lemma do_writes_app : forall a b ps, do_writes ps (a ++ b) = do_writes (do_writes ps a) b.
Proof. intros. apply fold_left_app. Qed.
Lemma change_at_app : forall l p r f, change_at (List.length l) f (l ++ p :: r) = (l ++ f p :: r)%list.
Proof. induction l as [|q l IH]; intros; cbn; [reflexivity|]. rewrite IH. reflexivity. Qed.
Lemma change_at_nth : forall i f l j, nth_error (change_at i f l) j =
  if (i =? j)%nat then option_map f (nth_error l j) else nth_error l j.
Proof.
  induction i as [|i IH]; intros f [|p l] [|j]; cbn; try reflexivity; try (destruct (i =? j)%nat; reflexivity). apply IH.
Qed.
Lemma change_at_length : forall i f l, List.length (change_at i f l) = List.length l.
Proof. induction i as [|i IH]; intros f [|p l]; cbn; auto. Qed.

(** What no write changes *)
Definition kept (p q : peer) : Prop := p_addr q = p_addr p /\ p_created q = p_created p.
Definition grown (l m : list peer) : Prop := forall i p, nth_error l i = Some p -> exists q, nth_error m i = Some q /\ kept p q.
Lemma grown_refl : forall l, grown l l.
Proof. intros l i p H. exists p. split; [exact H|split; reflexivity]. Qed.
Lemma grown_trans : forall a b c, grown a b -> grown b c -> grown a c.
Proof.
  intros a b c X Y i p H. destruct (X i p H) as (q & Q & K1 & K2). destruct (Y i q Q) as (z & Z & L1 & L2).
  exists z. split; [exact Z|]. split; congruence.
Qed.
Lemma grown_write : forall ps w, grown ps (do_write ps w).
Proof.
  intros ps w i p H.
  assert (C : forall j f, (forall p, kept p (f p)) -> exists q, nth_error (change_at j f ps) i = Some q /\ kept p q).
  { intros j f K. rewrite change_at_nth. destruct (j =? i)%nat; rewrite H; cbn [option_map]; eexists; split; try reflexivity; [apply K|split; reflexivity]. }
  destruct w; cbn [do_write]; try (apply C; intros; split; reflexivity).
  exists p. split; [|split; reflexivity]. rewrite nth_error_app1; [exact H|]. apply nth_error_Some. congruence.
Qed.
Lemma grown_writes : forall ws ps, grown ps (do_writes ps ws).
Proof.
  induction ws as [|w ws IH]; intros ps; [apply grown_refl|]. cbn. eapply grown_trans; [apply grown_write|apply IH].
Qed.
Lemma grown_len : forall a b, grown a b -> (List.length a <= List.length b)%nat.
Proof.
  intros a b G. destruct (Nat.le_gt_cases (List.length a) (List.length b)) as [L|L]; [exact L|].
  destruct (nth_error a (List.length b)) as [p|] eqn:E; [|apply nth_error_None in E; lia].
  destruct (G _ _ E) as (q & Q & _). assert (List.length b < List.length b)%nat by (apply nth_error_Some; congruence). lia.
Qed.

(** ** The writes of a beacon are what it does *)
Lemma peer_index_split : forall ps a,
  (~ In a (map p_addr ps) /\ peer_index ps a = None) \/
  (exists l p r, ps = (l ++ p :: r)%list /\ ~ In a (map p_addr l) /\ p_addr p = a /\ peer_index ps a = Some (List.length l)).
Proof.
  induction ps as [|q ps IH]; intros a; [left; split; [intros []|reflexivity]|]. cbn [peer_index map].
  destruct (String.eqb_spec (p_addr q) a) as [E|E].
  - right. exists [], q, ps. split; [reflexivity|]. split; [intros []|]. auto.
  - destruct (IH a) as [[N S]|(l & p & r & -> & N & A & S)].
    + left. split; [intros [?|?]; auto|]. rewrite S. reflexivity.
    + right. exists (q :: l), p, r. split; [reflexivity|]. split; [intros [?|?]; auto|]. split; [exact A|]. rewrite S. reflexivity.
Qed.
Lemma nth_app : forall {A} (l : list A) p r, nth_error (l ++ p :: r) (List.length l) = Some p.
Proof. intros. rewrite nth_error_app2, Nat.sub_diag by lia. reflexivity. Qed.
Lemma do_writes_cons : forall ps w ws, do_writes ps (w :: ws) = do_writes (do_write ps w) ws.
Proof. reflexivity. Qed.
Ltac one_write := rewrite do_writes_cons; cbn [do_write]; rewrite change_at_app; unfold set_updated;
  cbn [p_addr p_freespace p_eid p_maxdesc p_canrx p_cantx p_created p_updated t_header t_secs t_nsecs t_local t_ttype].
Lemma entry_writes_do : forall l p r p', kept p p' -> do_writes (l ++ p :: r) (entry_writes (List.length l) p') = (l ++ p' :: r)%list.
Proof.
  intros l [a f e d x y c [h se n lo ty]] r [a' f' e' d' x' y' c' [h' se' n' lo' ty']] [A C]. cbn [p_addr p_created] in A, C. subst a' c'.
  unfold entry_writes. cbn [p_addr p_freespace p_eid p_maxdesc p_canrx p_cantx p_created p_updated t_header t_secs t_nsecs t_local t_ttype].
  do 10 one_write. reflexivity.
Qed.
Lemma shown_kept : forall now p b, kept p (shown now p b).
Proof. split; reflexivity. Qed.
Lemma beacon_writes_cases : forall now ps b a, good_now now ->
  (~ In a (map p_addr ps) /\ beacon_writes now ps b (Some a) = Ret [Append (fresh_peer now b a)] /\
     new_peer now ps b (Some a) = Ret ((ps ++ [fresh_peer now b a])%list, true)) \/
  (exists l p r, ps = (l ++ p :: r)%list /\ ~ In a (map p_addr l) /\ p_addr p = a /\
     (shows p b -> beacon_writes now ps b (Some a) = Ret [] /\ new_peer now ps b (Some a) = Ret (ps, false)) /\
     (~ shows p b -> beacon_writes now ps b (Some a) = Ret (entry_writes (List.length l) (shown now p b)) /\
        new_peer now ps b (Some a) = Ret ((l ++ shown now p b :: r)%list, true))).
Proof.
  intros now ps b a G. unfold beacon_writes.
  destruct (peer_index_split ps a) as [[N S]|(l & p & r & E & N & A & S)]; rewrite S.
  - left. split; [exact N|]. rewrite peer_new_spec by auto. cbn [obind]. split; [reflexivity|].
    destruct (new_peer_split now ps b a G) as [[_ X]|(l & p & r & E & _ & A & _)]; [exact X|].
    exfalso. apply N. rewrite E, map_app, in_app_iff. right. left. exact A.
  - right. exists l, p, r. split; [exact E|]. split; [exact N|]. split; [exact A|]. subst ps. rewrite nth_app.
    assert (X : (shows p b -> new_peer now (l ++ p :: r)%list b (Some a) = Ret ((l ++ p :: r)%list, false)) /\
      (~ shows p b -> new_peer now (l ++ p :: r)%list b (Some a) = Ret ((l ++ shown now p b :: r)%list, true))).
    { destruct (new_peer_split now (l ++ p :: r)%list b a G) as [[M _]|(l' & p' & r' & E & N' & A' & X)].
      - exfalso. apply M. rewrite map_app, in_app_iff. right. left. exact A.
      - assert (Q : l = l' /\ p = p' /\ r = r').
        { clear - E N N' A A'. revert l' E N'. induction l as [|q l IH]; intros [|q' l'] E N'; cbn [app] in E.
          - injection E as E1 E2. auto.
          - injection E as E1 E2. exfalso. apply N'. left. congruence.
          - injection E as E1 E2. exfalso. apply N. left. congruence.
          - injection E as E1 E. subst q'. destruct (IH (fun h => N (or_intror h)) l' E (fun h => N' (or_intror h))) as (-> & -> & ->). auto. }
        destruct Q as (-> & -> & ->). exact X. }
    destruct (peer_change_spec now p b G) as [C1 C2]. split; intros H.
    + rewrite C1 by exact H. split; [reflexivity|]. apply X, H.
    + rewrite C2 by exact H. split; [reflexivity|]. apply X, H.
Qed.

(** ** The tables of a history, write by write *)
Section History.
Variables (ps0 : list peer) (hist : list sighting).

Definition entry a f e d x y (c u v : gotime) : peer :=
  {| p_addr := a; p_freespace := f; p_eid := e; p_maxdesc := d; p_canrx := x; p_cantx := y; p_created := stamp_at c;
     p_updated := stamp_at {| unix_secs := unix_secs u; unix_nanos := unix_nanos v |} |}.
Inductive ok_entry : peer -> Prop :=
| ok_intro : forall a f e d x y c u v,
    free_offered ps0 hist a f -> eid_offered ps0 hist a e -> desc_offered ps0 hist a d -> rx_offered ps0 hist a x ->
    tx_offered ps0 hist a y -> good_now c -> created_offered ps0 hist a c -> good_now u -> updated_offered ps0 hist a u ->
    good_now v -> updated_offered ps0 hist a v -> ok_entry (entry a f e d x y c u v).
Definition good_state (k : nat) (T : list peer) : Prop :=
  Forall ok_entry T /\ (k <= List.length hist)%nat /\ addresses_after ps0 hist k (map p_addr T).
Fixpoint path (K : nat) (T : list peer) (ws : list write) : Prop :=
  exists k, (K <= k)%nat /\ good_state k T /\ match ws with [] => True | w :: ws => path k (do_write T w) ws end.

Lemma path_le : forall ws K K' T, (K' <= K)%nat -> path K T ws -> path K' T ws.
Proof. intros [|w ws] K K' T L (k & LK & G & P); exists k; split; try lia; auto. Qed.
Lemma path_good : forall ws K T, path K T ws -> exists k, (K <= k)%nat /\ good_state k T /\ path k T ws.
Proof. intros ws K T P. destruct ws as [|w ws]; destruct P as (k & L & G & P); exists k; repeat split; auto; try apply G; exists k; auto. Qed.
Lemma path_app : forall a b K T, path K T (a ++ b) -> exists k, (K <= k)%nat /\ path k (do_writes T a) b.
Proof.
  induction a as [|w a IH]; intros b K T P; [exists K; split; [lia|exact P]|].
  cbn [app] in P. destruct P as (k & L & _ & P). destruct (IH _ _ _ P) as (k' & L' & P'). exists k'. split; [lia|exact P'].
Qed.
Lemma path_cons : forall k T w ws, good_state k T -> path k (do_write T w) ws -> path k T (w :: ws).
Proof. intros. exists k. auto. Qed.

Lemma good_change : forall k l p q r, good_state k (l ++ p :: r) -> p_addr q = p_addr p -> ok_entry q -> good_state k (l ++ q :: r).
Proof.
  intros k l p q r (F & L & A) E O. split; [|split; [exact L|]].
  - apply Forall_app in F. destruct F as [F1 F2]. inversion F2; subst. apply Forall_app. split; [exact F1|]. constructor; assumption.
  - rewrite map_app in *. cbn [map] in *. rewrite E. exact A.
Qed.
Lemma path_entry : forall k l r W a f e d x y c u v f' e' d' x' y' s,
  good_state k (l ++ entry a f e d x y c u v :: r) ->
  ok_entry (entry a f e d x y c u v) -> ok_entry (entry a f' e' d' x' y' c s s) ->
  path k (l ++ entry a f' e' d' x' y' c s s :: r) W ->
  path k (l ++ entry a f e d x y c u v :: r) (entry_writes (List.length l) (entry a f' e' d' x' y' c s s) ++ W).
Proof.
  intros k l r W a f e d x y c u v f' e' d' x' y' s G O O' P.
  remember (entry a f e d x y c u v) as p eqn:EP. remember (entry a f' e' d' x' y' c s s) as q eqn:EQ.
  destruct O as [a1 f1 e1 d1 x1 y1 c1 u1 v1 A1 A2 A3 A4 A5 A6 A7 A8 A9 A10 A11].
  destruct O' as [a2 f2 e2 d2 x2 y2 c2 u2 v2 B1 B2 B3 B4 B5 B6 B7 B8 B9 B10 B11].
  assert (AA : a2 = a1) by (apply (f_equal p_addr) in EP, EQ; cbn in *; congruence). subst a2.
  assert (CC : stamp_at c2 = stamp_at c1) by (apply (f_equal p_created) in EP, EQ; cbn [entry p_created] in EP, EQ; congruence). clear EP EQ.
  assert (UU : forall q, (forall g, p_created (entry q 0 "" "" "" "" g g g) = stamp_at g)) by reflexivity.
  assert (E2 : entry a1 f2 e2 d2 x2 y2 c2 u2 v2 = entry a1 f2 e2 d2 x2 y2 c1 u2 v2) by (unfold entry; rewrite CC; reflexivity).
  rewrite E2 in *. unfold entry_writes.
  cbn [app entry p_freespace p_eid p_maxdesc p_canrx p_cantx p_updated].
  assert (CH : forall q q', good_state k (l ++ q :: r) -> p_addr q' = p_addr q -> ok_entry q' -> good_state k (l ++ q' :: r))
    by (intros; eapply good_change; eauto).
  assert (N : forall w W q q', do_write (l ++ q :: r) w = (l ++ q' :: r)%list -> p_addr q' = p_addr q -> ok_entry q' -> good_state k (l ++ q :: r) ->
     (good_state k (l ++ q' :: r) -> path k (l ++ q' :: r) W) -> path k (l ++ q :: r) (w :: W)).
  { intros w W' q q' D E O2 Gq X. apply path_cons; [exact Gq|]. rewrite D. apply X. eapply CH; eauto. }
  pose proof G as G0.
  apply (N _ _ _ (entry a1 f2 e1 d1 x1 y1 c1 u1 v1)); [cbn [do_write]; rewrite change_at_app; reflexivity|reflexivity|constructor; assumption|exact G0|clear G0; intros G0].
  apply (N _ _ _ (entry a1 f2 e2 d1 x1 y1 c1 u1 v1)); [cbn [do_write]; rewrite change_at_app; reflexivity|reflexivity|constructor; assumption|exact G0|clear G0; intros G0].
  apply (N _ _ _ (entry a1 f2 e2 d2 x1 y1 c1 u1 v1)); [cbn [do_write]; rewrite change_at_app; reflexivity|reflexivity|constructor; assumption|exact G0|clear G0; intros G0].
  apply (N _ _ _ (entry a1 f2 e2 d2 x2 y1 c1 u1 v1)); [cbn [do_write]; rewrite change_at_app; reflexivity|reflexivity|constructor; assumption|exact G0|clear G0; intros G0].
  apply (N _ _ _ (entry a1 f2 e2 d2 x2 y2 c1 u1 v1)); [cbn [do_write]; rewrite change_at_app; reflexivity|reflexivity|constructor; assumption|exact G0|clear G0; intros G0].
  apply (N _ _ _ (entry a1 f2 e2 d2 x2 y2 c1 u1 v1)); [cbn [do_write]; rewrite change_at_app; reflexivity|reflexivity|constructor; assumption|exact G0|clear G0; intros G0].
  apply (N _ _ _ (entry a1 f2 e2 d2 x2 y2 c1 u2 v1)); [cbn [do_write]; rewrite change_at_app; reflexivity|reflexivity|constructor; assumption|exact G0|clear G0; intros G0].
  apply (N _ _ _ (entry a1 f2 e2 d2 x2 y2 c1 u2 v1)); [cbn [do_write]; rewrite change_at_app; reflexivity|reflexivity|constructor; assumption|exact G0|clear G0; intros G0].
  apply (N _ _ _ (entry a1 f2 e2 d2 x2 y2 c1 u2 v2)); [cbn [do_write]; rewrite change_at_app; reflexivity|reflexivity|constructor; assumption|exact G0|clear G0; intros G0].
  apply (N _ _ _ (entry a1 f2 e2 d2 x2 y2 c1 u2 v2)); [cbn [do_write]; rewrite change_at_app; reflexivity|reflexivity|constructor; assumption|exact G0|clear G0; intros G0].
  exact P.
Qed.

(** A beacon offers what it says *)
Lemma offer_shown : forall s a, In s hist -> sg_from s = Some a ->
  free_offered ps0 hist a (b_freespace (sg_beacon s)) /\ eid_offered ps0 hist a (b_eid (sg_beacon s)) /\
  desc_offered ps0 hist a (desc_name (hd_descriptor (b_header (sg_beacon s)))) /\
  rx_offered ps0 hist a (will_name (hd_rx (b_header (sg_beacon s)))) /\ tx_offered ps0 hist a (will_name (hd_tx (b_header (sg_beacon s)))) /\
  created_offered ps0 hist a (sg_now s) /\ updated_offered ps0 hist a (sg_now s).
Proof.
  intros s a I F.
  assert (S : shows (fresh_peer (sg_now s) (sg_beacon s) a) (sg_beacon s)) by (apply shows_eq; repeat split; reflexivity).
  destruct S as (_ & _ & S3 & S4 & S5). cbn [fresh_peer p_maxdesc p_canrx p_cantx] in S3, S4, S5.
  repeat split; right; exists s; auto.
Qed.
Lemma register_app : forall a ps s, register_all ps (a ++ [s]) =
  (do ' (ps1, reps) <- register_all ps a; do ' (ps2, rep) <- new_peer (sg_now s) ps1 (sg_beacon s) (sg_from s); Ret (ps2, (reps ++ [rep])%list)).
Proof. intros. apply register_all_snoc. Qed.

Lemma history_path : (forall s, In s hist -> good_now (sg_now s)) -> forall todo donel T reps,
  hist = (donel ++ todo)%list -> register_all ps0 donel = Ret (T, reps) -> Forall ok_entry T ->
  exists W T' reps', history_writes T todo = Ret W /\ path (List.length donel) T W /\
    register_all ps0 hist = Ret (T', reps') /\ do_writes T W = T'.
Proof.
  intros GH. induction todo as [|s todo IH]; intros donel T reps H R F.
  - exists [], T, reps. rewrite app_nil_r in H. split; [reflexivity|]. split; [|split; [rewrite H; exact R|reflexivity]].
    exists (List.length donel). split; [lia|]. split; [|exact I]. split; [exact F|]. split; [rewrite H; reflexivity|].
    exists T, reps. rewrite H, firstn_all. auto.
  - assert (GS : good_state (List.length donel) T).
    { split; [exact F|]. split; [rewrite H, app_length; lia|]. exists T, reps. rewrite H. rewrite firstn_app, firstn_all, Nat.sub_diag, app_nil_r. auto. }
    assert (IS : In s hist) by (rewrite H; apply in_app_iff; right; left; reflexivity).
    assert (NEXT : forall ws T1 rep, beacon_writes (sg_now s) T (sg_beacon s) (sg_from s) = Ret ws ->
       new_peer (sg_now s) T (sg_beacon s) (sg_from s) = Ret (T1, rep) -> do_writes T ws = T1 -> Forall ok_entry T1 ->
       (forall W, path (List.length donel) T1 W -> path (List.length donel) T (ws ++ W)) ->
       exists W T' reps', history_writes T (s :: todo) = Ret W /\ path (List.length donel) T W /\
         register_all ps0 hist = Ret (T', reps') /\ do_writes T W = T').
    { intros ws T1 rep B NP D F1 X.
      destruct (IH (donel ++ [s])%list T1 (reps ++ [rep])%list) as (W & T' & reps' & HW & P & RR & DD).
      - rewrite <- app_assoc. exact H.
      - rewrite register_app, R. cbn [obind]. rewrite NP. reflexivity.
      - exact F1.
      - exists (ws ++ W)%list, T', reps'. cbn [history_writes]. rewrite B. cbn [obind]. rewrite D, HW. cbn [obind]. split; [reflexivity|].
        split; [|split; [exact RR|rewrite do_writes_app, D; exact DD]]. apply X. eapply path_le; [|exact P]. rewrite app_length. cbn [List.length]. lia. }
    destruct (sg_from s) as [a|] eqn:FR.
    2:{ apply (NEXT [] T false); [reflexivity|unfold new_peer; reflexivity|reflexivity|exact F|intros W P; exact P]. }
    destruct (offer_shown s a IS FR) as (O1 & O2 & O3 & O4 & O5 & O6 & O7). pose proof (GH s IS) as GN.
    destruct (beacon_writes_cases (sg_now s) T (sg_beacon s) a GN) as [(NI & B & NP)|(l & p & r & E & NI & A & B1 & B2)].
    + apply (NEXT _ _ _ B NP); [reflexivity| |].
      * apply Forall_app. split; [exact F|]. constructor; [|constructor].
        exact (ok_intro a _ _ _ _ _ (sg_now s) (sg_now s) (sg_now s) O1 O2 O3 O4 O5 GN O6 GN O7 GN O7).
      * intros W P. apply path_cons; [exact GS|exact P].
    + assert (SH : shows p (sg_beacon s) \/ ~ shows p (sg_beacon s)).
      { rewrite shows_eq. destruct (N.eq_dec (p_freespace p) (b_freespace (sg_beacon s))); [|right; tauto].
        destruct (string_dec (p_eid p) (b_eid (sg_beacon s))); [|right; tauto].
        destruct (string_dec (p_maxdesc p) (desc_name (hd_descriptor (b_header (sg_beacon s))))); [|right; tauto].
        destruct (string_dec (p_canrx p) (will_name (hd_rx (b_header (sg_beacon s))))); [|right; tauto].
        destruct (string_dec (p_cantx p) (will_name (hd_tx (b_header (sg_beacon s))))); [left; tauto|right; tauto]. }
      destruct SH as [SH|SH].
      * destruct (B1 SH) as [B NP]. apply (NEXT _ _ _ B NP); [reflexivity|exact F|intros W P; exact P].
      * destruct (B2 SH) as [B NP]. subst T. pose proof F as F0. apply Forall_app in F. destruct F as [F1 F2].
        inversion F2 as [|? ? OP F3]; subst.
        assert (O' : ok_entry (shown (sg_now s) p (sg_beacon s))).
        { destruct OP as [a1 f1 e1 d1 x1 y1 c1 u1 v1 A1 A2 A3 A4 A5 A6 A7 A8 A9 A10 A11]. cbn [entry p_addr] in *.
          exact (ok_intro a1 _ _ _ _ _ c1 (sg_now s) (sg_now s) O1 O2 O3 O4 O5 A6 A7 GN O7 GN O7). }
        apply (NEXT _ _ _ B NP).
        -- apply entry_writes_do, shown_kept.
        -- apply Forall_app. split; [exact F1|]. constructor; assumption.
        -- intros W P. destruct OP as [a1 f1 e1 d1 x1 y1 c1 u1 v1 A1 A2 A3 A4 A5 A6 A7 A8 A9 A10 A11].
           exact (path_entry _ l r W a1 f1 e1 d1 x1 y1 c1 u1 v1 _ _ _ _ _ (sg_now s) GS (ok_intro a1 _ _ _ _ _ c1 u1 v1 A1 A2 A3 A4 A5 A6 A7 A8 A9 A10 A11) O' P).
Qed.
Lemma start_ok : (forall p, In p ps0 -> timed_peer p) -> Forall ok_entry ps0.
Proof.
  intros H. apply Forall_forall. intros p I. destruct (H p I) as (c & u & GC & GU & C & U).
  replace p with (entry (p_addr p) (p_freespace p) (p_eid p) (p_maxdesc p) (p_canrx p) (p_cantx p) c u u).
  - constructor; auto; left; exists p; auto.
  - destruct p; cbn in *; subst; reflexivity.
Qed.

(** ** Reading while writing *)
Definition state : Type := nat * list peer * list write.
Definition sk (c : state) : nat := fst (fst c).
Definition st (c : state) : list peer := snd (fst c).
Definition inv (c : state) : Prop := good_state (sk c) (st c) /\ path (sk c) (st c) (snd c).
Definition later (c c' : state) : Prop := (sk c <= sk c')%nat /\ grown (st c) (st c') /\ inv c'.
Lemma later_trans : forall a b c, later a b -> later b c -> later a c.
Proof. intros a b c (A1 & A2 & _) (B1 & B2 & B3). split; [lia|]. split; [eapply grown_trans; eauto|exact B3]. Qed.
Fixpoint wp {A} (c : state) (m : looks A) (Q : state -> A -> Prop) : Prop :=
  match m with
  | Stop (Ret a) => Q c a
  | Stop _ => False
  | Look k => forall c', later c c' -> wp c' (k (st c')) Q
  end.
Lemma wp_mono : forall {A} (m : looks A) c (Q Q' : state -> A -> Prop), (forall c' a, c = c' \/ later c c' -> Q c' a -> Q' c' a) -> wp c m Q -> wp c m Q'.
Proof.
  intros A m. induction m as [[a| |]|k IH]; intros c Q Q' H W; cbn in *; auto.
  intros c' L. apply (IH _ _ Q); [|auto]. intros c2 a [<-|L2] X; apply H; auto. right. eapply later_trans; eauto.
Qed.
Lemma wp_bind : forall {A B} (m : looks A) (f : A -> looks B) c Q, wp c m (fun c' a => wp c' (f a) Q) -> wp c (lbind m f) Q.
Proof. intros A B m f. induction m as [[a| |]|k IH]; intros c Q W; cbn in *; auto. Qed.
Lemma wp_run : forall {A} (m : looks A) c Q sched rest, inv c -> snd c = (concat sched ++ rest)%list -> wp c m Q ->
  exists a c' sched', interleave m sched (st c) = (Ret a, (sched', st c')) /\ Q c' a.
Proof.
  intros A m. induction m as [[a| |]|k IH]; intros c Q sched rest I E W; cbn in W; try contradiction.
  - exists a, c, sched. auto.
  - cbn [interleave].
    assert (E' : snd c = (hd [] sched ++ (concat (tl sched) ++ rest))%list).
    { rewrite E. destruct sched; cbn; [reflexivity|]. rewrite app_assoc. reflexivity. }
    destruct I as [G P]. rewrite E' in P. destruct (path_app _ _ _ _ P) as (k1 & L1 & P1).
    destruct (path_good _ _ _ P1) as (k2 & L2 & G2 & P2).
    set (c' := (k2, do_writes (st c) (hd [] sched), (concat (tl sched) ++ rest)%list) : state).
    assert (I' : inv c') by (split; assumption).
    apply (IH (st c') c' Q (tl sched) rest); [exact I'|reflexivity|]. apply W. split; [cbn; lia|]. split; [apply grown_writes|exact I'].
Qed.

(** [l] are the addresses of the peers from number [i] on *)
Definition placed (c : state) (i : nat) (l : list string) : Prop :=
  forall j a, nth_error l j = Some a -> exists p, nth_error (st c) (i + j) = Some p /\ p_addr p = a.
Lemma placed_later : forall c c' i l, later c c' -> placed c i l -> placed c' i l.
Proof.
  intros c c' i l (_ & G & _) P j a H. destruct (P j a H) as (p & N & A). destruct (G _ _ N) as (q & Q & K & _). exists q. split; [exact Q|congruence].
Qed.
Lemma placed_tail : forall c i a l, placed c i (a :: l) -> placed c (S i) l.
Proof. intros c i a l P j b H. destruct (P (S j) b H) as (p & N & A). exists p. split; [|exact A]. rewrite <- N. f_equal. lia. Qed.
Definition mine (c : state) (i : nat) (p : peer) : Prop := exists q, nth_error (st c) i = Some q /\ kept p q.
Lemma mine_later : forall c c' i p, later c c' -> mine c i p -> mine c' i p.
Proof.
  intros c c' i p (_ & G & _) (q & N & K1 & K2). destruct (G _ _ N) as (z & Z & L1 & L2). exists z. split; [exact Z|]. split; congruence.
Qed.
Lemma placed_mine : forall c i a l, inv c -> placed c i (a :: l) -> exists p, mine c i p /\ ok_entry p /\ p_addr p = a.
Proof.
  intros c i a l [(F & _) _] P. destruct (P 0%nat a eq_refl) as (p & N & A). rewrite Nat.add_0_r in N. exists p. split; [|split; [|exact A]].
  - exists p. split; [exact N|split; reflexivity].
  - rewrite Forall_forall in F. apply F. eapply nth_error_In, N.
Qed.
Lemma wp_look_at : forall {A} (f : peer -> A) c i p (Q : state -> A -> Prop), mine c i p ->
  (forall c' q, later c c' -> kept p q -> ok_entry q -> Q c' (f q)) -> wp c (look_at i f) Q.
Proof.
  intros A f c i p Q M H. cbn. intros c' L. destruct (mine_later _ _ _ _ L M) as (q & N & K). rewrite N. cbn. apply H; auto.
  destruct L as (_ & _ & [(F & _) _]). rewrite Forall_forall in F. apply F. eapply nth_error_In, N.
Qed.
Lemma wp_time : forall f c i p a (ok : gotime -> Prop) (Q : state -> string -> Prop), mine c i p -> p_addr p = a ->
  (forall q, kept p q -> ok_entry q -> exists u v, ok u /\ ok v /\ good_now u /\ good_now v /\ f q = stamp_at {| unix_secs := unix_secs u; unix_nanos := unix_nanos v |}) ->
  (forall c' u v text, later c c' -> ok u -> ok v -> utc_text true (unix_secs u * 10 ^ 9 + unix_nanos v) text -> slen text = 32%nat -> Q c' text) ->
  wp c (look_time i f) Q.
Proof.
  intros f c i p a ok Q M A F H. unfold look_time.
  apply wp_bind, (wp_look_at _ c i p); [exact M|]. intros c1 q1 L1 K1 O1.
  apply wp_bind, (wp_look_at _ c1 i p); [eapply mine_later; eauto|]. intros c2 q2 L2 K2 O2.
  apply wp_bind, (wp_look_at _ c2 i p); [do 2 (eapply mine_later; [eassumption|]); exact M|]. intros c3 q3 L3 K3 O3.
  apply wp_bind, (wp_look_at _ c3 i p); [do 3 (eapply mine_later; [eassumption|]); exact M|]. intros c4 q4 L4 K4 O4.
  apply wp_bind, (wp_look_at _ c4 i p); [do 4 (eapply mine_later; [eassumption|]); exact M|]. intros c5 q5 L5 K5 O5.
  destruct (F q1 K1 O1) as (u1 & v1 & _ & _ & _ & _ & E1). destruct (F q2 K2 O2) as (u2 & v2 & U2 & _ & GU & _ & E2).
  destruct (F q3 K3 O3) as (u3 & v3 & _ & V3 & _ & GV & E3). destruct (F q4 K4 O4) as (u4 & v4 & _ & _ & _ & _ & E4).
  destruct (F q5 K5 O5) as (u5 & v5 & _ & _ & _ & _ & E5). rewrite E1, E2, E3, E4, E5.
  assert (G : good_now {| unix_secs := unix_secs u2; unix_nanos := unix_nanos v3 |}) by (destruct GU, GV; split; assumption).
  destruct (stamp_text _ G) as (text & P & U & L). rewrite (instant_stamp _ G) in U.
  match goal with |- wp _ (Stop (ts_print ?t)) _ => change t with (stamp_at {| unix_secs := unix_secs u2; unix_nanos := unix_nanos v3 |}) end.
  rewrite P. cbn [wp]. apply (H _ u2 v3); auto. exact (later_trans _ _ _ L1 (later_trans _ _ _ L2 (later_trans _ _ _ L3 (later_trans _ _ _ L4 L5)))).
Qed.
Lemma wp_created : forall c i p a (Q : state -> string -> Prop), mine c i p -> ok_entry p -> p_addr p = a ->
  (forall c' t text, later c c' -> created_offered ps0 hist a t -> utc_text true (unix_secs t * 10 ^ 9 + unix_nanos t) text -> slen text = 32%nat -> Q c' text) ->
  wp c (look_time i p_created) Q.
Proof.
  intros c i p a Q M O A H. destruct O as [a1 f1 e1 d1 x1 y1 c1 u1 v1 A1 A2 A3 A4 A5 A6 A7 A8 A9 A10 A11]. cbn in A. subst a1.
  apply (wp_time _ c i _ a (fun t => t = c1) Q M eq_refl).
  - intros q [_ K] _. exists c1, c1. cbn [entry p_created] in K. rewrite K. repeat (split; [auto; exact A6|]). destruct c1; reflexivity.
  - intros c' u v text L -> -> U S. eauto.
Qed.
Lemma wp_updated : forall c i p a (Q : state -> string -> Prop), mine c i p -> p_addr p = a ->
  (forall c' u v text, later c c' -> updated_offered ps0 hist a u -> updated_offered ps0 hist a v -> utc_text true (unix_secs u * 10 ^ 9 + unix_nanos v) text -> slen text = 32%nat -> Q c' text) ->
  wp c (look_time i p_updated) Q.
Proof.
  intros c i p a Q M A H. apply (wp_time _ c i p a (updated_offered ps0 hist a) Q M A); [|exact H].
  intros q [K _] O. destruct O as [a1 f1 e1 d1 x1 y1 c1 u1 v1 A1 A2 A3 A4 A5 A6 A7 A8 A9 A10 A11]. cbn in K.
  rewrite A in K. subst a1. exists u1, v1. repeat (split; [assumption|]). reflexivity.
Qed.

(** The widths *)
Definition either (n : nat) (ok : string -> Prop) (w : nat) : Prop := w = n \/ exists s, ok s /\ w = slen s.
Lemma wp_longer : forall c n (text : looks string) (ok : string -> Prop) (good : state -> Prop) (Q : state -> nat -> Prop),
  good c -> (forall c1, good c1 -> wp c1 text (fun c' s => good c' /\ ok s)) ->
  (forall c' m, good c' -> (m = n /\ exists s, ok s /\ (slen s <= n)%nat) \/ (exists s s', ok s /\ ok s' /\ (n < slen s')%nat /\ m = slen s) -> Q c' m) ->
  wp c (look_longer n text) Q.
Proof.
  intros c n text ok good Q G T H. unfold look_longer. apply wp_bind.
  eapply wp_mono; [|exact (T c G)]. cbv beta. intros c1 s _ [G1 O]. destruct (Nat.ltb_spec n (slen s)) as [L|L]; [|cbn; apply H; [exact G1|left; eauto]].
  apply wp_bind. eapply wp_mono; [|exact (T c1 G1)]. cbv beta. intros c2 s2 _ [G2 O2]. cbn. apply H; [exact G2|right; exists s2, s; auto].
Qed.
Lemma grew_either : forall n m (ok : string -> Prop), (m = n /\ exists s, ok s /\ (slen s <= n)%nat) \/ (exists s s', ok s /\ ok s' /\ (n < slen s')%nat /\ m = slen s) -> either n ok m.
Proof. intros n m ok [[-> _]|(s & _ & O & _ & _ & ->)]; [left; reflexivity|right; eauto]. Qed.
Definition ready (c0 : state) (i : nat) (p : peer) (c : state) : Prop := (c0 = c \/ later c0 c) /\ inv c /\ mine c i p.
Lemma ready_later : forall c0 i p c c', ready c0 i p c -> later c c' -> ready c0 i p c'.
Proof.
  intros c0 i p c c' (R1 & R2 & R3) L. split; [|split].
  - right. destruct R1 as [->|R1]; [exact L|eapply later_trans; eauto].
  - apply L.
  - eapply mine_later; eauto.
Qed.
Definition some_eid (s : string) : Prop := exists a, eid_offered ps0 hist a s.
Definition some_rx (s : string) : Prop := exists a, rx_offered ps0 hist a s.
Definition some_tx (s : string) : Prop := exists a, tx_offered ps0 hist a s.
Definition time_width (n : nat) : Prop := n = 0%nat \/ n = 32%nat.
Lemma either_trans : forall n m k ok, either n ok m -> either m ok k -> either n ok k.
Proof. intros n m k ok [->|H] [->|K]; unfold either; auto. Qed.
Lemma wp_widths : forall l c i w (Q : state -> pwidths -> Prop), inv c -> placed c i l -> time_width (pw_cre w) -> time_width (pw_mod w) ->
  (forall c' w', c = c' \/ later c c' -> inv c' -> pw_addr w' = Nat.max (pw_addr w) (longest l) ->
     either (pw_eid w) some_eid (pw_eid w') -> either (pw_rx w) some_rx (pw_rx w') -> either (pw_tx w) some_tx (pw_tx w') ->
     (l <> [] \/ (pw_cre w = 32%nat /\ pw_mod w = 32%nat) -> pw_cre w' = 32%nat /\ pw_mod w' = 32%nat) -> Q c' w') ->
  wp c (look_widths i (List.length l) w) Q.
Proof.
  induction l as [|a l IH]; intros c i w Q I P TC TM H; cbn [List.length look_widths].
  { cbn. apply H; try (left; reflexivity); try exact I; [cbn; lia|]. intros [X|X]; [congruence|exact X]. }
  destruct (placed_mine c i a l I P) as (p & M & O & A).
  assert (R0 : ready c i p c) by (split; [left; reflexivity|split; assumption]).
  assert (TXT : forall {V} (f : peer -> V) (ok : V -> Prop), (forall q, ok_entry q -> p_addr q = a -> ok (f q)) ->
     forall c1, ready c i p c1 -> wp c1 (look_at i f) (fun c' s => ready c i p c' /\ ok s)).
  { intros V f ok F c1 R1. apply (wp_look_at f c1 i p); [apply R1|]. intros c' q L [K _] Oq. split; [eapply ready_later; eauto|]. apply F; [exact Oq|congruence]. }
  apply wp_bind, (wp_longer c _ _ (fun s => s = a) (ready c i p)); [exact R0|apply TXT; intros; congruence|].
  intros c1 wa R1 EA.
  apply wp_bind, (wp_longer c1 _ _ some_eid (ready c i p)); [exact R1|apply TXT; intros q [] <-; eexists; eassumption|].
  intros c2 we R2 EE. apply grew_either in EE.
  apply wp_bind, (wp_longer c2 _ _ some_rx (ready c i p)); [exact R2|apply TXT; intros q [] <-; eexists; eassumption|].
  intros c3 wr R3 ER. apply grew_either in ER.
  apply wp_bind, (wp_longer c3 _ _ some_tx (ready c i p)); [exact R3|apply TXT; intros q [] <-; eexists; eassumption|].
  intros c4 wt R4 ET. apply grew_either in ET.
  assert (CRE : forall c1, ready c i p c1 -> wp c1 (look_time i p_created) (fun c' s => ready c i p c' /\ slen s = 32%nat)).
  { intros cc Rc. apply (wp_created cc i p a); [apply Rc|exact O|exact A|]. intros c' t text L _ _ S. split; [eapply ready_later; eauto|exact S]. }
  assert (UPD : forall c1, ready c i p c1 -> wp c1 (look_time i p_updated) (fun c' s => ready c i p c' /\ slen s = 32%nat)).
  { intros cc Rc. apply (wp_updated cc i p a); [apply Rc|exact A|]. intros c' t v text L _ _ _ S. split; [eapply ready_later; eauto|exact S]. }
  apply wp_bind, (wp_longer c4 _ _ (fun s => slen s = 32%nat) (ready c i p)); [exact R4|exact CRE|].
  intros c5 wc R5 EC.
  apply wp_bind. eapply wp_mono; [|exact (CRE c5 R5)]. cbv beta. intros c6 cre _ [R6 S6].
  apply wp_bind.
  assert (WM : wp c6 (if (pw_mod w <? slen cre)%nat then look u <- look_time i p_updated; Stop (Ret (slen u)) else Stop (Ret (pw_mod w)))
     (fun c' m => ready c i p c' /\ m = 32%nat)).
  { rewrite S6. destruct TM as [TM|TM]; rewrite TM.
    - change (0 <? 32)%nat with true. cbv iota. apply wp_bind. eapply wp_mono; [|exact (UPD c6 R6)]. cbv beta. intros c7 u _ [R7 S7]. cbn. auto.
    - change (32 <? 32)%nat with false. cbn. auto. }
  eapply wp_mono; [|exact WM]. cbv beta. intros c7 m _ [R7 ->].
  assert (WC : wc = 32%nat).
  { destruct EC as [[-> (s & S & L)]|(s & s' & S & S' & L & ->)]; [|exact S]. destruct TC; lia. }
  assert (WA : wa = Nat.max (pw_addr w) (slen a)).
  { destruct EA as [[-> (s & -> & L)]|(s & s' & -> & -> & L & ->)]; lia. }
  destruct R7 as (RL & RI & RM).
  apply IH; [exact RI| |right; exact WC|right; reflexivity|].
  { apply placed_tail with a. destruct RL as [<-|RL]; [exact P|eapply placed_later; eauto]. }
  intros c8 w' L8 I8 HA HE HR HT HTM. cbn [pw_addr pw_eid pw_rx pw_tx pw_cre pw_mod] in *. apply H; [|exact I8|..].
  - destruct RL as [<-|RL]; [exact L8|]. right. destruct L8 as [<-|L8]; [exact RL|eapply later_trans; eauto].
  - rewrite HA, WA, longest_cons. lia.
  - eapply either_trans; eauto.
  - eapply either_trans; eauto.
  - eapply either_trans; eauto.
  - intros _. apply HTM. right. auto.
Qed.

(** The rows *)
Lemma wp_row : forall c i a l ws (Q : state -> string -> Prop), inv c -> placed c i (a :: l) -> List.length ws = 8%nat ->
  (forall c' line, later c c' -> row_seen ps0 hist ws a line -> Q c' line) -> wp c (look_row ws i) Q.
Proof.
  intros c i a l ws Q I P LW H. destruct (placed_mine c i a l I P) as (p & M & O & A). unfold look_row.
  apply wp_bind, (wp_look_at _ c i p); [exact M|]. intros c1 q1 L1 [K1 _] O1.
  apply wp_bind, (wp_look_at _ c1 i p); [eapply mine_later; eauto|]. intros c2 q2 L2 [K2 _] O2.
  apply (mine_later _ _ _ _ L1) in M. apply (mine_later _ _ _ _ L2) in M.
  apply wp_bind, (wp_look_at _ c2 i p); [exact M|]. intros c3 q3 L3 [K3 _] O3. apply (mine_later _ _ _ _ L3) in M.
  apply wp_bind, (wp_look_at _ c3 i p); [exact M|]. intros c4 q4 L4 [K4 _] O4. apply (mine_later _ _ _ _ L4) in M.
  apply wp_bind, (wp_look_at _ c4 i p); [exact M|]. intros c5 q5 L5 [K5 _] O5. apply (mine_later _ _ _ _ L5) in M.
  apply wp_bind, (wp_look_at _ c5 i p); [exact M|]. intros c6 q6 L6 [K6 _] O6. apply (mine_later _ _ _ _ L6) in M.
  apply wp_bind, (wp_created c6 i p a); [exact M|exact O|exact A|]. intros c7 t cre L7 OC UC _. apply (mine_later _ _ _ _ L7) in M.
  apply wp_bind, (wp_updated c7 i p a); [exact M|exact A|]. intros c8 u v upd L8 OU OV UU _. cbn [wp]. apply H.
  { exact (later_trans _ _ _ L1 (later_trans _ _ _ L2 (later_trans _ _ _ L3 (later_trans _ _ _ L4 (later_trans _ _ _ L5 (later_trans _ _ _ L6 (later_trans _ _ _ L7 L8))))))). }
  exists (p_freespace q2), (p_eid q3), (p_maxdesc q4), (p_canrx q5), (p_cantx q6), t, u, v, cre, upd.
  assert (OFF : forall q, ok_entry q -> p_addr q = p_addr p -> free_offered ps0 hist a (p_freespace q) /\ eid_offered ps0 hist a (p_eid q) /\
     desc_offered ps0 hist a (p_maxdesc q) /\ rx_offered ps0 hist a (p_canrx q) /\ tx_offered ps0 hist a (p_cantx q)).
  { intros q Oq Aq. assert (Aq' : p_addr q = a) by congruence. destruct Oq. cbn in Aq'. subst. cbn [entry p_freespace p_eid p_maxdesc p_canrx p_cantx]. auto. }
  split; [apply OFF; assumption|]. split; [apply (OFF q3); assumption|]. split; [apply (OFF q4); assumption|]. split; [apply (OFF q5); assumption|].
  split; [apply (OFF q6); assumption|]. split; [exact OC|]. split; [exact OU|]. split; [exact OV|]. split; [exact UC|]. split; [exact UU|].
  replace (p_addr q1) with a by congruence. change (2 ^ 20) with (1024 * 1024). rewrite <- N.div_div by lia. apply table_row_row. rewrite LW. reflexivity.
Qed.
Lemma wp_rows : forall l c i ws (Q : state -> list string -> Prop), inv c -> placed c i l -> List.length ws = 8%nat ->
  (forall c' rows, c = c' \/ later c c' -> Forall2 (row_seen ps0 hist ws) l rows -> Q c' rows) -> wp c (look_rows ws i (List.length l)) Q.
Proof.
  induction l as [|a l IH]; intros c i ws Q I P LW H; cbn [List.length look_rows].
  { cbn. apply H; [left; reflexivity|constructor]. }
  apply wp_bind, (wp_row c i a l ws); [exact I|exact P|exact LW|]. intros c1 line L1 R1.
  apply wp_bind, IH; [apply L1|eapply placed_tail, placed_later; eauto|exact LW|]. intros c2 rows L2 R2. cbn. apply H; [|constructor; assumption].
  right. destruct L2 as [<-|L2]; [exact L1|eapply later_trans; eauto].
Qed.
Lemma placed_all : forall c, placed c 0 (map p_addr (st c)).
Proof.
  intros c j a H. rewrite nth_error_map in H. cbn [Nat.add]. destruct (nth_error (st c) j) as [p|]; cbn in H; [|discriminate]. injection H as <-. exists p. auto.
Qed.
Lemma wp_shown : forall c, inv c -> wp c peers_shown (fun _ text => listing_seen ps0 hist text).
Proof.
  intros c I. unfold peers_shown. cbn [wp]. intros c1 L1. pose proof L1 as (_ & _ & [(_ & B1 & A1) _]).
  destruct (st c1) as [|p0 T0] eqn:ET.
  { cbn [wp]. exists (sk c1), (sk c1), (sk c1), [], [], []. cbn [map] in A1. split; [lia|]. split; [exact B1|]. repeat (split; [exact A1|]). left. auto. }
  rewrite <- ET in A1. assert (NE : map p_addr (st c1) <> []) by (rewrite ET; discriminate).
  cbn [wp]. intros c2 L2. pose proof L2 as (K2 & G2 & [(_ & B2 & A2) _]). assert (I2 : inv c2) by apply L2.
  set (between := map p_addr (st c2)) in *.
  replace (List.length (st c2)) with (List.length between) by apply map_length.
  apply wp_bind, wp_widths; [exact I2|apply placed_all|left; reflexivity|left; reflexivity|].
  cbn [pw_addr pw_eid pw_rx pw_tx pw_cre pw_mod]. intros c3 w L3 I3 WA WE WR WT WTM.
  assert (NB : between <> []).
  { unfold between. intros Z. apply map_eq_nil in Z. apply grown_len in G2. rewrite Z, ET in G2. cbn in G2. lia. }
  destruct (WTM (or_introl NB)) as [WC WM]. rewrite Nat.max_0_l in WA.
  cbv zeta. cbn [wp]. intros c4 L4. pose proof L4 as (K4 & G4 & [(_ & B4 & A4) _]). assert (I4 : inv c4) by apply L4.
  set (after := map p_addr (st c4)) in *.
  set (ws := peer_columns w) in *. replace (List.length (st c4)) with (List.length after) by apply map_length.
  apply wp_bind, (wp_rows after); [exact I4|apply placed_all|reflexivity|]. intros c5 rows _ F. cbn [wp].
  exists (sk c1), (sk c2), (sk c4), (map p_addr (st c1)), between, after.
  split. { destruct L3 as [<-|(K3 & _)]; lia. }
  split; [exact B4|]. split; [exact A1|]. split; [exact A2|]. split; [exact A4|]. right. split; [exact NE|].
  set (e := if (pw_eid w <? 3)%nat then 3%nat else pw_eid w) in *.
  pose proof (sort_perm rows) as SP.
  assert (ORD : exists order, Permutation order after /\ Forall2 (row_seen ps0 hist ws) order (sort_strings rows)).
  { apply Permutation_sym in SP. destruct (Permutation_Forall2 SP (forall2_flip _ _ _ F)) as (order & PO & FO). exists order. split; [symmetry; exact PO|apply forall2_flip in FO; exact FO]. }
  destruct ORD as (order & PO & FO).
  assert (WS : ws = [longest between; 6; e; 3; pw_rx w; pw_tx w; 32; 32]%nat) by (unfold ws, peer_columns; rewrite WA, WC, WM; reflexivity).
  exists e, (pw_rx w), (pw_tx w), (table_row "|" ws peer_titles), (sort_strings rows), order. cbv zeta. rewrite <- WS.
  split. { unfold width_seen, e. destruct (Nat.ltb_spec (pw_eid w) 3) as [L|L]; [left; reflexivity|right]. split; [exact L|]. destruct WE as [WE|(s & S & WE)]; [lia|]. exists s. auto. }
  split. { destruct WR as [WR|(s & S & WR)]; [left; exact WR|right; split; [lia|exists s; auto]]. }
  split. { destruct WT as [WT|(s & S & WT)]; [left; exact WT|right; split; [lia|exists s; auto]]. }
  split. { rewrite border_row. reflexivity. }
  split. { apply table_row_row. reflexivity. }
  split. { apply sorted_ordered, sort_sorted. }
  split; assumption.
Qed.
End History.
