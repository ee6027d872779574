(** * The properties of the peer table *)

From Verif Require Import GoBase GoFacts Flags SpecFlags FlagsFacts Config Shipped ConfigFacts SpecWire SarFacts Timestamp SpecTime TimeMain Data SpecFrames FrameFacts FlagStrFacts BuildFacts Beacon Peers SpecPeers.
Local Open Scope string_scope.
Local Open Scope N_scope.

Definition will_name (v : N) : string := match v with 0 => "no" | 1 => "invalid" | 2 => "capable" | _ => "yes" end.
Definition hd_rx (h : N) : N := bit_field 32 14 2 h.
Definition hd_tx (h : N) : N := bit_field 32 12 2 h.
Lemma getstr_rx : forall h, sf_getstr sar h "rxwilling" = Ret (will_name (hd_rx h)).
Proof.
  intros h. erewrite getstr_field by (vm_compute; reflexivity). cbn [f_opts f_msb f_len].
  unfold hd_rx. bf2 (bit_field 32 14 2 h). destruct H as [E|[E|[E|E]]]; rewrite E; reflexivity.
Qed.
Lemma getstr_tx : forall h, sf_getstr sar h "txwilling" = Ret (will_name (hd_tx h)).
Proof.
  intros h. erewrite getstr_field by (vm_compute; reflexivity). cbn [f_opts f_msb f_len].
  unfold hd_tx. bf2 (bit_field 32 12 2 h). destruct H as [E|[E|[E|E]]]; rewrite E; reflexivity.
Qed.

Ltac read_name h v msb :=
  split;
  [ intros (fl & n & L & O & B); vm_compute in L; inversion L; subst fl; cbn [f_msb f_len f_opts] in *; rewrite B;
    cbn [lookup] in O;
    repeat (match type of O with (if String.eqb v ?x then _ else _) = _ => destruct (String.eqb_spec v x) as [->|] end; [inversion O; reflexivity|]);
    discriminate
  | intros ->; eexists; eexists; split; [vm_compute; reflexivity|]; cbn [f_msb f_len f_opts]; split; [|reflexivity];
    bf2 (bit_field 32 msb 2 h); match goal with H : _ \/ _ |- _ => destruct H as [?|[?|[?|?]]] end;
    match goal with X : bit_field _ _ _ _ = _ |- _ => rewrite X end; reflexivity ].

Lemma reads_desc : forall h v, reads sar h "descriptor" v <-> v = desc_name (bit_field 32 8 2 h).
Proof. intros h v. read_name h v 8. Qed.
Lemma reads_rx : forall h v, reads sar h "rxwilling" v <-> v = will_name (bit_field 32 14 2 h).
Proof. intros h v. read_name h v 14. Qed.
Lemma reads_tx : forall h v, reads sar h "txwilling" v <-> v = will_name (bit_field 32 12 2 h).
Proof. intros h v. read_name h v 12. Qed.

Lemma shows_eq : forall p b, shows p b <->
  p_freespace p = b_freespace b /\ p_eid p = b_eid b /\ p_maxdesc p = desc_name (hd_descriptor (b_header b)) /\
  p_canrx p = will_name (hd_rx (b_header b)) /\ p_cantx p = will_name (hd_tx (b_header b)).
Proof. intros p b. unfold shows. rewrite reads_desc, reads_rx, reads_tx. reflexivity. Qed.

Lemma desc_name_inj : forall a b, a < 2 ^ 2 -> b < 2 ^ 2 -> desc_name a = desc_name b -> a = b.
Proof.
  intros a b A B. apply lt4 in A. apply lt4 in B.
  destruct A as [->|[->|[->| ->]]], B as [->|[->|[->| ->]]]; intros H; try reflexivity; discriminate.
Qed.
Lemma will_name_inj : forall a b, a < 2 ^ 2 -> b < 2 ^ 2 -> will_name a = will_name b -> a = b.
Proof.
  intros a b A B. apply lt4 in A. apply lt4 in B.
  destruct A as [->|[->|[->| ->]]], B as [->|[->|[->| ->]]]; intros H; try reflexivity; discriminate.
Qed.
Lemma shows_advert : forall p b c, shows p b -> (shows p c <-> advert_of c = advert_of b).
Proof.
  intros p b c S. rewrite shows_eq in *. destruct S as (S1 & S2 & S3 & S4 & S5). unfold advert_of. split.
  - intros (C1 & C2 & C3 & C4 & C5). f_equal; [f_equal; [f_equal; [f_equal|]|]|]; try congruence.
    + apply desc_name_inj; try apply bit_field_bound. congruence.
    + apply will_name_inj; try apply bit_field_bound. unfold hd_rx in *. congruence.
    + apply will_name_inj; try apply bit_field_bound. unfold hd_tx in *. congruence.
  - intros E. inversion E as [[E1 E2 E3 E4 E5]]. unfold hd_rx, hd_tx, hd_descriptor in *.
    rewrite E3, E4, E5. repeat split; congruence.
Qed.

Definition shown (now : gotime) (p : peer) (b : beacon) : peer :=
  {| p_addr := p_addr p; p_freespace := b_freespace b; p_eid := b_eid b; p_maxdesc := desc_name (hd_descriptor (b_header b));
     p_canrx := will_name (hd_rx (b_header b)); p_cantx := will_name (hd_tx (b_header b));
     p_created := p_created p; p_updated := stamp_at now |}.
Definition fresh_peer (now : gotime) (b : beacon) (a : string) : peer :=
  {| p_addr := a; p_freespace := b_freespace b; p_eid := b_eid b; p_maxdesc := desc_name (hd_descriptor (b_header b));
     p_canrx := will_name (hd_rx (b_header b)); p_cantx := will_name (hd_tx (b_header b));
     p_created := stamp_at now; p_updated := stamp_at now |}.

Lemma stamp_good : forall now t, good_now now -> ts_now now t "posix32_32" = Ret (stamp_at now, None).
Proof.
  intros now t [G GN]. unfold ts_now.
  destruct (c12_posix32_32 t now) as [E _]; [split; lia|unfold nanos_of; lia|]. rewrite E by lia. reflexivity.
Qed.

Lemma peer_change_spec : forall now p b, good_now now ->
  (shows p b -> peer_change now p b = Ret (p, false)) /\
  (~ shows p b -> peer_change now p b = Ret (shown now p b, true)).
Proof.
  intros now p b G. rewrite shows_eq. unfold peer_change. rewrite getstr_descriptor, getstr_rx, getstr_tx. cbn [obind].
  rewrite stamp_good by auto. cbn [obind].
  destruct (N.eqb_spec (p_freespace p) (b_freespace b)); cbn [negb obind]; [|split; [tauto|reflexivity]].
  destruct (String.eqb_spec (p_eid p) (b_eid b)); cbn [negb obind]; [|split; [tauto|reflexivity]].
  destruct (String.eqb_spec (p_maxdesc p) (desc_name (hd_descriptor (b_header b)))); cbn [negb obind]; [|split; [tauto|reflexivity]].
  destruct (String.eqb_spec (p_canrx p) (will_name (hd_rx (b_header b)))); cbn [negb obind]; [|split; [tauto|reflexivity]].
  destruct (String.eqb_spec (p_cantx p) (will_name (hd_tx (b_header b)))); cbn [negb obind]; [|split; [tauto|reflexivity]].
  split; [reflexivity|tauto].
Qed.
Lemma peer_new_spec : forall now b a, good_now now -> peer_new now b a = Ret (fresh_peer now b a).
Proof.
  intros now b a G. unfold peer_new. rewrite getstr_descriptor, getstr_rx, getstr_tx. cbn [obind]. rewrite stamp_good by auto. reflexivity.
Qed.

Lemma peer_scan_split : forall now ps b a,
  (~ In a (map p_addr ps) /\ peer_scan now ps b a = Ret None) \/
  (exists l p r, ps = (l ++ p :: r)%list /\ ~ In a (map p_addr l) /\ p_addr p = a /\
     peer_scan now ps b a = (do ' (p', ch) <- peer_change now p b; Ret (Some ((l ++ p' :: r)%list, ch)))).
Proof.
  intros now ps b a. induction ps as [|q ps IH]; [left; split; [intros []|reflexivity]|].
  cbn [peer_scan map]. destruct (String.eqb_spec (p_addr q) a) as [E|E].
  - right. exists [], q, ps. split; [reflexivity|]. split; [intros []|]. split; [exact E|reflexivity].
  - destruct IH as [[N S]|(l & p & r & -> & N & A & S)].
    + left. split; [intros [?|?]; auto|]. rewrite S. reflexivity.
    + right. exists (q :: l), p, r. split; [reflexivity|]. split; [intros [?|?]; auto|]. split; [exact A|].
      rewrite S. destruct (peer_change now p b) as [[p' ch]| |]; reflexivity.
Qed.

Lemma new_peer_split : forall now ps b a, good_now now ->
  (~ In a (map p_addr ps) /\ new_peer now ps b (Some a) = Ret ((ps ++ [fresh_peer now b a])%list, true)) \/
  (exists l p r, ps = (l ++ p :: r)%list /\ ~ In a (map p_addr l) /\ p_addr p = a /\
     (shows p b -> new_peer now ps b (Some a) = Ret (ps, false)) /\
     (~ shows p b -> new_peer now ps b (Some a) = Ret ((l ++ shown now p b :: r)%list, true))).
Proof.
  intros now ps b a G. unfold new_peer. destruct (peer_scan_split now ps b a) as [[N S]|(l & p & r & E & N & A & S)]; rewrite S.
  - left. split; [exact N|]. cbn [obind]. rewrite peer_new_spec by auto. reflexivity.
  - right. exists l, p, r. repeat split; auto; intros H; destruct (peer_change_spec now p b G) as [C1 C2].
    + rewrite C1 by auto. cbn [obind]. congruence.
    + rewrite C2 by auto. reflexivity.
Qed.

(** C41: one call: the sender's entry is changed in place, or added at the end;
    all other entries stay as they are and where they are. *)
Lemma c41_one_call : forall now ps b a, good_now now -> exists ps' p' rep,
  new_peer now ps b (Some a) = Ret (ps', rep) /\ p_addr p' = a /\ shows p' b /\
  ((~ In a (map p_addr ps) /\ ps' = (ps ++ [p'])%list /\ rep = true) \/
   (exists l p r, ps = (l ++ p :: r)%list /\ ps' = (l ++ p' :: r)%list /\ p_addr p = a /\ ~ In a (map p_addr l) /\
      p_created p' = p_created p /\ (rep = false <-> p' = p) /\ (rep = false <-> shows p b))).
Proof.
  intros now ps b a G. destruct (new_peer_split now ps b a G) as [[N E]|(l & p & r & -> & N & A & S1 & S2)].
  - exists (ps ++ [fresh_peer now b a])%list, (fresh_peer now b a), true. split; [exact E|]. split; [reflexivity|].
    split; [apply shows_eq; cbn; auto|]. left. auto.
  - assert (D : shows p b \/ ~ shows p b).
    { rewrite shows_eq.
      destruct (N.eq_dec (p_freespace p) (b_freespace b)); [|right; tauto].
      destruct (String.string_dec (p_eid p) (b_eid b)); [|right; tauto].
      destruct (String.string_dec (p_maxdesc p) (desc_name (hd_descriptor (b_header b)))); [|right; tauto].
      destruct (String.string_dec (p_canrx p) (will_name (hd_rx (b_header b)))); [|right; tauto].
      destruct (String.string_dec (p_cantx p) (will_name (hd_tx (b_header b)))); [left|right]; tauto. }
    destruct D as [D|D].
    + exists (l ++ p :: r)%list, p, false. split; [auto|]. split; [auto|]. split; [auto|]. right.
      exists l, p, r. do 5 (split; [auto|]). split; split; auto.
    + exists (l ++ shown now p b :: r)%list, (shown now p b), true. split; [auto|]. split; [auto|].
      assert (SH : shows (shown now p b) b) by (apply shows_eq; cbn; auto 6). split; [exact SH|]. right.
      exists l, p, r. split; [auto|]. split; [auto|]. split; [auto|]. split; [auto|]. split; [auto|]. split; split; try discriminate.
      * intros X. exfalso. apply D. rewrite <- X. exact SH.
      * intros X. contradiction.
Qed.

(** C41: a call without a sender does nothing. *)
Lemma c41_no_sender : forall now ps b, new_peer now ps b None = Ret (ps, false).
Proof. reflexivity. Qed.

Lemma register_all_snoc : forall hist ps s, register_all ps (hist ++ [s]) =
  (do ' (ps1, reps) <- register_all ps hist;
   do ' (ps2, rep) <- new_peer (sg_now s) ps1 (sg_beacon s) (sg_from s);
   Ret (ps2, (reps ++ [rep])%list)).
Proof.
  induction hist as [|t hist IH]; intros ps s; cbn [app register_all].
  - cbn [obind]. destruct (new_peer _ _ _ _) as [[ps2 rep]| |]; reflexivity.
  - destruct (new_peer _ _ _ _) as [[ps1 rep]| |]; cbn [obind]; auto. rewrite IH.
    destruct (register_all ps1 hist) as [[ps2 reps]| |]; cbn [obind]; auto.
    destruct (new_peer _ _ _ _) as [[ps3 rep']| |]; reflexivity.
Qed.

Lemma seen_snoc : forall a hist s, seen a (hist ++ [s]) = if is_from a s then s :: seen a hist else seen a hist.
Proof. intros. unfold seen. rewrite filter_app, rev_app_distr. cbn [filter]. destruct (is_from a s); reflexivity. Qed.
Lemma seen_nil : forall a hist, seen a hist = [] <-> ~ exists s, In s hist /\ sg_from s = Some a.
Proof.
  intros a hist. unfold seen. split.
  - intros H (s & I & F). apply (f_equal (@rev _)) in H. rewrite rev_involutive in H. cbn in H.
    assert (X : In s (filter (is_from a) hist)) by (apply filter_In; split; auto; unfold is_from; rewrite F; apply String.eqb_refl).
    rewrite H in X. destruct X.
  - intros H. destruct (filter (is_from a) hist) as [|s l] eqn:E; [reflexivity|]. exfalso. apply H.
    assert (X : In s (filter (is_from a) hist)) by (rewrite E; left; auto). apply filter_In in X. destruct X as [X1 X2].
    exists s. split; auto. unfold is_from in X2. destruct (sg_from s); [|discriminate]. apply String.eqb_eq in X2. subst; reflexivity.
Qed.

Lemma addr_inj : forall ps p q, NoDup (map p_addr ps) -> In p ps -> In q ps -> p_addr p = p_addr q -> q = p.
Proof.
  induction ps as [|x ps IH]; intros p q ND IP IQ E; [destruct IP|]. cbn in ND. inversion ND; subst.
  destruct IP as [->|IP], IQ as [->|IQ]; auto; exfalso; apply H1; [rewrite E|rewrite <- E]; apply in_map; auto.
Qed.

Lemma last_shift : forall A (l : list A) x d, last (x :: l) d = last l x.
Proof. induction l as [|y l IH]; intros; [reflexivity|]. transitivity (last (y :: l) d); [reflexivity|]. rewrite !IH. reflexivity. Qed.

(** C41: after any history, starting from an empty table: one entry for every
    address heard from and no other; the entry shows the latest beacon of the
    address, was created at the time of the first, and updated at the time of the
    latest that said something new; every call reported exactly the news. *)
Lemma c41_history : forall hist, (forall s, In s hist -> good_now (sg_now s)) ->
  exists ps reps, register_all [] hist = Ret (ps, reps) /\
    NoDup (map p_addr ps) /\
    (forall a, In a (map p_addr ps) <-> exists s, In s hist /\ sg_from s = Some a) /\
    (forall p, In p ps -> right_entry hist p) /\
    length reps = length hist /\
    (forall i s, nth_error hist i = Some s -> (nth_error reps i = Some true <-> is_news (firstn i hist) s)).
Proof.
  induction hist as [|s hist IH] using rev_ind; intros G.
  { exists [], []. cbn. split; [reflexivity|]. split; [constructor|]. split; [intros; split; [intros []|intros (? & [] & _)]|].
    split; [intros ? []|]. split; [reflexivity|]. intros [|i] s H; discriminate. }
  destruct IH as (ps & reps & R & ND & AD & RE & LR & NW); [intros; apply G; apply in_app_iff; auto|].
  assert (Gs : good_now (sg_now s)) by (apply G; apply in_app_iff; right; left; auto).
  rewrite register_all_snoc, R. cbn [obind].
  assert (REPS : forall rep, (rep = true <-> is_news hist s) ->
    length (reps ++ [rep]) = length (hist ++ [s]) /\
    (forall i t, nth_error (hist ++ [s]) i = Some t -> (nth_error (reps ++ [rep]) i = Some true <-> is_news (firstn i (hist ++ [s])) t))).
  { intros rep Hr. split; [rewrite !app_length; cbn; lia|]. intros i t Ht.
    destruct (Nat.lt_ge_cases i (length hist)) as [L|L].
    - rewrite nth_error_app1 in Ht by auto. rewrite nth_error_app1 by lia. rewrite firstn_app.
      replace (i - length hist)%nat with 0%nat by lia. cbn [firstn]. rewrite app_nil_r. apply NW; auto.
    - rewrite nth_error_app2 in Ht by auto. rewrite nth_error_app2 by lia. rewrite LR.
      destruct (i - length hist)%nat as [|k] eqn:K; cbn in Ht; [|destruct k; discriminate]. inversion Ht; subst t.
      rewrite firstn_app, K. cbn [firstn]. rewrite app_nil_r. rewrite firstn_all2 by lia. cbn [nth_error].
      rewrite <- Hr. split; [intros X; inversion X; reflexivity|intros ->; reflexivity]. }
  destruct (sg_from s) as [a|] eqn:F.
  2:{ cbn [new_peer obind]. exists ps, (reps ++ [false])%list. split; [reflexivity|].
      assert (IF : forall a, is_from a s = false) by (intros; unfold is_from; rewrite F; reflexivity).
      split; [exact ND|]. split.
      { intros a. rewrite AD. split; intros (t & I & T); exists t; (split; [|exact T]); [apply in_app_iff; auto|].
        apply in_app_iff in I. destruct I as [I|[<-|[]]]; [auto|congruence]. }
      split.
      { intros p I. destruct (RE p I) as (lt & rest & c & X). exists lt, rest, c. rewrite seen_snoc, IF. exact X. }
      apply REPS. split; [discriminate|]. intros (a & A & _). congruence. }
  assert (IFa : is_from a s = true) by (unfold is_from; rewrite F; apply String.eqb_refl).
  assert (IFo : forall x, x <> a -> is_from x s = false) by (intros; unfold is_from; rewrite F; apply String.eqb_neq; auto).
  assert (OTHER : forall p, right_entry hist p -> p_addr p <> a -> right_entry (hist ++ [s]) p).
  { intros p (lt & rest & c & X) NE. exists lt, rest, c. rewrite seen_snoc, IFo by auto. exact X. }
  assert (ADs : forall l, (forall x, In x l <-> x = a \/ exists t, In t hist /\ sg_from t = Some x) ->
     forall x, In x l <-> exists t, In t (hist ++ [s]) /\ sg_from t = Some x).
  { intros l H x. rewrite H. split.
    - intros [->|(t & I & T)]; [exists s|exists t]; (split; [apply in_app_iff; cbn; auto|auto]).
    - intros (t & I & T). apply in_app_iff in I. destruct I as [I|[<-|[]]]; [right; eauto|left; congruence]. }
  destruct (new_peer_split (sg_now s) ps (sg_beacon s) a Gs) as [[N E]|(l & p & r & EQ & N & A & S1 & S2)].
  - (* a new address *)
    rewrite E. cbn [obind]. assert (S0 : seen a hist = []) by (apply seen_nil; rewrite <- AD; exact N).
    exists (ps ++ [fresh_peer (sg_now s) (sg_beacon s) a])%list, (reps ++ [true])%list. split; [reflexivity|].
    rewrite map_app. cbn [map fresh_peer p_addr].
    split.
    { apply NoDup_Add with (a := a) (l := map p_addr ps); [|split; auto].
      rewrite <- (app_nil_r (map p_addr ps)) at 1. apply Add_app. }
    split.
    { apply ADs. intros x. rewrite in_app_iff, AD. cbn. intuition. }
    split.
    { intros p I. apply in_app_iff in I. destruct I as [I|[<-|[]]].
      - apply OTHER; auto. intros X. apply N. rewrite <- X. apply in_map; auto.
      - exists s, [], s. cbn [p_addr fresh_peer]. rewrite seen_snoc, IFa, S0. split; [reflexivity|].
        split; [apply shows_eq; cbn; auto|]. split; [reflexivity|]. split; reflexivity. }
    apply REPS. split; [intros _|reflexivity]. exists a. rewrite S0. auto.
  - (* a known address *)
    assert (IP : In p ps) by (rewrite EQ; apply in_app_iff; right; left; auto).
    destruct (RE p IP) as (lt & rest & c & SN & SH & CR & LC & UP). rewrite A in *.
    pose proof (shows_advert p (sg_beacon lt) (sg_beacon s) SH) as SA.
    destruct (advert_dec (advert_of (sg_beacon s)) (advert_of (sg_beacon lt))) as [D|D].
    + rewrite S1 by (apply SA; exact D). cbn [obind]. exists ps, (reps ++ [false])%list. split; [reflexivity|]. split; [exact ND|].
      split.
      { apply ADs. intros x. rewrite AD. split; [auto|]. intros [->|X]; [|exact X]. apply AD. rewrite <- A. apply in_map; auto. }
      split.
      { intros q I. destruct (String.string_dec (p_addr q) a) as [Q|Q]; [|apply OTHER; auto].
        assert (q = p) by (eapply addr_inj; eauto; congruence).
        subst q. exists s, (lt :: rest), c. rewrite A, seen_snoc, IFa, SN. split; [reflexivity|].
        split; [apply SA; exact D|]. split; [rewrite CR, last_shift; reflexivity|].
        split; [|exact UP]. rewrite SN in LC. cbn [last_change] in LC |- *. destruct (advert_dec _ _); [exact LC|contradiction]. }
      apply REPS. split; [discriminate|]. intros (x & X & Y). assert (x = a) by congruence. subst x. rewrite SN in Y. contradiction.
    + rewrite S2 by (intros X; apply D, SA, X). cbn [obind].
      exists (l ++ shown (sg_now s) p (sg_beacon s) :: r)%list, (reps ++ [true])%list. split; [reflexivity|].
      assert (MA : map p_addr (l ++ shown (sg_now s) p (sg_beacon s) :: r) = map p_addr ps).
      { rewrite EQ, !map_app. reflexivity. }
      rewrite MA. split; [exact ND|]. split.
      { apply ADs. intros x. rewrite AD. split; [auto|]. intros [->|X]; [|exact X]. apply AD. rewrite <- A. apply in_map; auto. }
      split.
      { intros q I. apply in_app_iff in I. destruct I as [I|[<-|I]].
        - apply OTHER; [apply RE; rewrite EQ; apply in_app_iff; auto|]. intros X. apply N. rewrite <- X. apply in_map; auto.
        - exists s, (lt :: rest), s. cbn [p_addr shown]. rewrite A, seen_snoc, IFa, SN. split; [reflexivity|].
          split; [apply shows_eq; cbn; auto 6|]. split; [cbn [p_created shown]; rewrite CR, last_shift; reflexivity|].
          split; [|reflexivity]. cbn [last_change]. destruct (advert_dec _ _); [contradiction|reflexivity].
        - apply OTHER; [apply RE; rewrite EQ; apply in_app_iff; right; right; auto|].
          intros X. rewrite EQ, map_app in ND. cbn [map] in ND. apply NoDup_remove_2 in ND. apply ND.
          apply in_app_iff. right. rewrite A, <- X. apply in_map; auto. }
      apply REPS. split; [intros _|reflexivity]. exists a. rewrite SN. auto.
Qed.

(** ** Concurrent callers *)
Lemma entries_app : forall a l m, entries a (l ++ m) = (entries a l + entries a m)%nat.
Proof. intros. unfold entries. rewrite filter_app, app_length. reflexivity. Qed.

Definition is_new (p : pc) : bool := match p with DoneNew => true | _ => false end.
(** How many calls from address [a] have added an entry *)
Definition added (a : string) (cs : list caller) (pcs : list pc) : nat :=
  length (filter (fun x => String.eqb (c_addr (fst x)) a && is_new (snd x)) (combine cs pcs)).

Lemma set_nth_split : forall A (l : list A) i x y, nth_error l i = Some x ->
  exists a b, l = (a ++ x :: b)%list /\ set_nth i y l = (a ++ y :: b)%list /\ length a = i.
Proof.
  intros A l i x y H. destruct (nth_error_split _ _ H) as (a & b & -> & L). exists a, b. split; [reflexivity|]. split; auto.
  unfold set_nth. subst i. rewrite firstn_app, firstn_all, Nat.sub_diag. cbn [firstn]. rewrite app_nil_r. f_equal. f_equal.
  rewrite skipn_app. rewrite skipn_all2 by lia. replace (S (length a) - length a)%nat with 1%nat by lia. reflexivity.
Qed.

Lemma entries_set_nth : forall a ps i p q, nth_error ps i = Some p -> p_addr q = p_addr p ->
  entries a (set_nth i q ps) = entries a ps.
Proof.
  intros a ps i p q H E. destruct (set_nth_split _ _ _ _ q H) as (l & r & -> & -> & _).
  rewrite !entries_app. unfold entries. cbn [filter]. rewrite E. destruct (String.eqb (p_addr p) a); reflexivity.
Qed.

Lemma combine_app : forall A B (a : list A) (b : list B) x y, length a = length b ->
  combine (a ++ x) (b ++ y) = (combine a b ++ combine x y)%list.
Proof. induction a; destruct b; cbn; intros; try discriminate; auto. f_equal. auto. Qed.

Lemma added_set : forall a cs pcs i c p p', nth_error cs i = Some c -> nth_error pcs i = Some p -> is_new p = false ->
  added a cs (set_nth i p' pcs) = (added a cs pcs + if String.eqb (c_addr c) a && is_new p' then 1 else 0)%nat.
Proof.
  intros a cs pcs i c p p' C P N. destruct (set_nth_split _ _ _ _ p' P) as (l & r & -> & -> & L).
  destruct (nth_error_split _ _ C) as (cl & cr & -> & L2). unfold added.
  rewrite !combine_app by congruence. cbn [combine]. rewrite !filter_app, !app_length. cbn [filter fst snd]. rewrite N, andb_false_r.
  destruct (String.eqb (c_addr c) a && is_new p'); cbn [length]; lia.
Qed.

Lemma nth_set_nth_self : forall A (l : list A) i x, nth_error l i = Some x -> set_nth i x l = l.
Proof. intros. destruct (set_nth_split _ _ _ _ x H) as (a & b & -> & -> & _). reflexivity. Qed.

(** C42: in every schedule of any number of concurrent calls, the entries of an
    address are those that were there plus one for every call that did not find
    the address when it looked. *)
Lemma c42_count : forall cs sched pcs ps pcs' ps', (forall c, In c cs -> good_now (c_now c)) ->
  run_calls cs sched pcs ps = Ret (pcs', ps') ->
  forall a, (entries a ps' + added a cs pcs = entries a ps + added a cs pcs')%nat.
Proof.
  intros cs sched. induction sched as [|i sched IH]; intros pcs ps pcs' ps' G H a.
  - inversion H; subst. lia.
  - cbn [run_calls] in H. destruct (nth_error cs i) as [c|] eqn:C; [|eapply IH; eauto].
    destruct (nth_error pcs i) as [p|] eqn:P; [|eapply IH; eauto].
    assert (Gc : good_now (c_now c)) by (apply G; eapply nth_error_In; eauto).
    destruct p as [|k| |r|]; cbn [call_step] in H.
    + cbn [obind] in H. specialize (IH _ _ _ _ G H a).
      rewrite (added_set a cs pcs i c Start) in IH by auto.
      destruct (scan ps (c_addr c)); cbn [is_new] in IH; rewrite andb_false_r in IH; lia.
    + destruct (nth_error ps k) as [q|] eqn:Q; [|discriminate].
      assert (X : exists q' ch, peer_change (c_now c) q (c_beacon c) = Ret (q', ch) /\ p_addr q' = p_addr q).
      { destruct (c41_one_call (c_now c) [q] (c_beacon c) (p_addr q) Gc) as (ps1 & p1 & rep & E & _).
        unfold new_peer in E. cbn [peer_scan] in E. rewrite String.eqb_refl in E.
        destruct (peer_change (c_now c) q (c_beacon c)) as [[q' ch]| |] eqn:PC; cbn [obind] in E; try discriminate.
        exists q', ch. split; [reflexivity|].
        destruct (peer_change_spec (c_now c) q (c_beacon c) Gc) as [C1 C2].
        assert (D : shows q (c_beacon c) \/ ~ shows q (c_beacon c)).
        { rewrite shows_eq.
          destruct (N.eq_dec (p_freespace q) (b_freespace (c_beacon c))); [|right; tauto].
          destruct (String.string_dec (p_eid q) (b_eid (c_beacon c))); [|right; tauto].
          destruct (String.string_dec (p_maxdesc q) (desc_name (hd_descriptor (b_header (c_beacon c))))); [|right; tauto].
          destruct (String.string_dec (p_canrx q) (will_name (hd_rx (b_header (c_beacon c))))); [|right; tauto].
          destruct (String.string_dec (p_cantx q) (will_name (hd_tx (b_header (c_beacon c))))); [left|right]; tauto. }
        destruct D as [D|D]; [rewrite C1 in PC by auto|rewrite C2 in PC by auto]; inversion PC; subst; reflexivity. }
      destruct X as (q' & ch & PC & A). rewrite PC in H. cbn [obind] in H. specialize (IH _ _ _ _ G H a).
      rewrite (added_set a cs pcs i c (Found k)) in IH by auto. cbn [is_new] in IH. rewrite andb_false_r in IH.
      rewrite (entries_set_nth a ps k q q') in IH by auto. lia.
    + rewrite peer_new_spec in H by auto. cbn [obind] in H. specialize (IH _ _ _ _ G H a).
      rewrite (added_set a cs pcs i c NotFound) in IH by auto. cbn [is_new] in IH. rewrite andb_true_r in IH.
      rewrite entries_app in IH. unfold entries at 3 in IH. cbn [filter fresh_peer p_addr] in IH.
      destruct (String.eqb (c_addr c) a); cbn [length] in IH; lia.
    + cbn [obind] in H. rewrite (nth_set_nth_self _ _ _ _ P) in H. eapply IH; eauto.
    + cbn [obind] in H. rewrite (nth_set_nth_self _ _ _ _ P) in H. eapply IH; eauto.
Qed.

Lemma scan_None : forall ps a, scan ps a = None <-> entries a ps = 0%nat.
Proof.
  induction ps as [|p ps IH]; intros a; [split; reflexivity|]. unfold entries in *. cbn [scan filter].
  destruct (String.eqb (p_addr p) a); [split; discriminate|]. rewrite <- IH. destruct (scan ps a); split; congruence.
Qed.
Lemma scan_app : forall ps q a, entries a ps = 0%nat -> p_addr q = a -> scan (ps ++ [q]) a = Some (length ps).
Proof.
  induction ps as [|p ps IH]; intros q a E A.
  - cbn. rewrite A, String.eqb_refl. reflexivity.
  - unfold entries in *. cbn [scan filter app length] in *. destruct (String.eqb (p_addr p) a); [discriminate|].
    rewrite IH by auto. reflexivity.
Qed.

(** C42: two calls for an address that is not in the table, in every one of their
    interleavings: two entries exactly when both calls look before either one
    adds; otherwise one. *)
Lemma c42_two_callers : forall c1 c2 ps a, good_now (c_now c1) -> good_now (c_now c2) ->
  c_addr c1 = a -> c_addr c2 = a -> entries a ps = 0%nat ->
  forall sched, Permutation sched [0; 0; 1; 1]%nat ->
  exists pcs' ps', run_calls [c1; c2] sched [Start; Start] ps = Ret (pcs', ps') /\
    entries a ps' = (if Nat.eqb (hd 0%nat sched) (hd 0%nat (tl sched)) then 1 else 2)%nat.
Proof.
  intros c1 c2 ps a G1 G2 A1 A2 E sched P.
  assert (SC : (sched = [0; 0; 1; 1] \/ sched = [0; 1; 0; 1] \/ sched = [0; 1; 1; 0] \/
                sched = [1; 0; 0; 1] \/ sched = [1; 0; 1; 0] \/ sched = [1; 1; 0; 0])%nat).
  { assert (L : length sched = 4%nat) by (rewrite (Permutation_length P); reflexivity).
    destruct sched as [|w [|x [|y [|z [|? ?]]]]]; try discriminate.
    assert (I : forall u, In u [w; x; y; z] -> u = 0%nat \/ u = 1%nat).
    { intros u U. apply (Permutation_in _ P) in U. cbn in U. intuition. }
    assert (C : count_occ Nat.eq_dec [w; x; y; z] 0%nat = 2%nat).
    { rewrite (proj1 (Permutation_count_occ Nat.eq_dec _ _) P). reflexivity. }
    destruct (I w) as [->| ->]; [cbn; auto| |]; (destruct (I x) as [->| ->]; [cbn; auto| |]);
      (destruct (I y) as [->| ->]; [cbn; auto| |]); (destruct (I z) as [->| ->]; [cbn; auto 6| |]);
      cbn in C; try discriminate; auto 8. }
  assert (SN : scan ps a = None) by (apply scan_None; exact E).
  (* the table after the calls, by the counting theorem *)
  assert (FIN : forall pcs' ps', run_calls [c1; c2] sched [Start; Start] ps = Ret (pcs', ps') ->
    entries a ps' = added a [c1; c2] pcs').
  { intros pcs' ps' R. pose proof (c42_count [c1; c2] sched [Start; Start] ps pcs' ps') as C.
    specialize (C ltac:(intros c [<-|[<-|[]]]; auto) R a). 
    replace (added a [c1; c2] [Start; Start]) with 0%nat in C by (unfold added; cbn; rewrite !andb_false_r; reflexivity). lia. }
  assert (CH : forall c c', good_now (c_now c) -> exists q ch, 
     peer_change (c_now c) (fresh_peer (c_now c') (c_beacon c') a) (c_beacon c) = Ret (q, ch)).
  { intros c c' G. destruct (c41_one_call (c_now c) [fresh_peer (c_now c') (c_beacon c') a] (c_beacon c) a G) as (ps1 & p1 & rep & R & _).
    unfold new_peer in R. cbn [peer_scan fresh_peer p_addr] in R. rewrite String.eqb_refl in R. fold (fresh_peer (c_now c') (c_beacon c') a) in R.
    destruct (peer_change _ _ _) as [[q ch]| |] eqn:PC; cbn [obind] in R; try discriminate. eauto. }
  assert (NE : forall q, nth_error (ps ++ [q]) (length ps) = Some q).
  { intros q. rewrite nth_error_app2 by lia. rewrite Nat.sub_diag. reflexivity. }
  destruct (CH c1 c2 G1) as (q12 & ch12 & CH12). destruct (CH c2 c1 G2) as (q21 & ch21 & CH21).
  pose proof (scan_app ps (fresh_peer (c_now c1) (c_beacon c1) a) a E eq_refl) as SA1.
  pose proof (scan_app ps (fresh_peer (c_now c2) (c_beacon c2) a) a E eq_refl) as SA2.
  enough (RUN : exists pcs' ps', run_calls [c1; c2] sched [Start; Start] ps = Ret (pcs', ps') /\
    added a [c1; c2] pcs' = (if Nat.eqb (hd 0%nat sched) (hd 0%nat (tl sched)) then 1 else 2)%nat).
  { destruct RUN as (pcs' & ps' & R & AD). exists pcs', ps'. split; [exact R|]. rewrite (FIN _ _ R). exact AD. }
  clear FIN.
  destruct SC as [->|[->|[->|[->|[->| ->]]]]]; cbn [hd tl Nat.eqb];
    repeat (first [ progress cbn [obind nth_error set_nth firstn skipn app call_step run_calls]
                  | rewrite peer_new_spec by auto
                  | progress rewrite ?A1, ?A2, ?SN, ?SA1, ?SA2, ?NE, ?CH12, ?CH21 ]);
    (eexists; eexists; split; [reflexivity|]); unfold added;
    cbn [combine filter fst snd is_new]; rewrite ?A1, ?A2, ?String.eqb_refl; reflexivity.
Qed.

(** ** Concrete cases *)
Definition ex_peer_now : gotime := {| unix_secs := 1700000000; unix_nanos := 5 |}.
Definition ex_later : gotime := {| unix_secs := 1700000060; unix_nanos := 0 |}.
Definition ex_b1 : beacon := {| b_header := 0x20405000; b_freespace := 70000; b_eid := "x" |}.
Definition ex_b2 : beacon := {| b_header := 0x204F5000; b_freespace := 60000; b_eid := "x" |}.
Definition ex_hist : list sighting :=
  [ {| sg_now := ex_peer_now; sg_beacon := ex_b1; sg_from := Some "10.0.0.1" |};
    {| sg_now := ex_peer_now; sg_beacon := ex_b1; sg_from := Some "10.0.0.2" |};
    {| sg_now := ex_later; sg_beacon := ex_b1; sg_from := Some "10.0.0.1" |};
    {| sg_now := ex_later; sg_beacon := ex_b2; sg_from := Some "10.0.0.1" |};
    {| sg_now := ex_later; sg_beacon := ex_b2; sg_from := None |} ].
Example c41_history_ex : (forall s, In s ex_hist -> good_now (sg_now s)) /\
  exists p1 p2, register_all [] ex_hist = Ret ([p1; p2], [true; true; false; true; false]) /\
    p_freespace p1 = 60000 /\ p_canrx p1 = "yes" /\ t_secs (p_created p1) = 1700000000 /\ t_secs (p_updated p1) = 1700000060 /\
    p_freespace p2 = 70000.
Proof.
  split.
  - intros s I. cbn in I. repeat (destruct I as [<-|I]; [unfold good_now; cbn; lia|]). destruct I.
  - eexists. eexists. vm_compute. repeat split.
Qed.
Definition ex_c1 : caller := {| c_now := ex_peer_now; c_beacon := ex_b1; c_addr := "10.0.0.1" |}.
Definition ex_c2 : caller := {| c_now := ex_later; c_beacon := ex_b2; c_addr := "10.0.0.1" |}.
Example c42_two_callers_ex : good_now (c_now ex_c1) /\ good_now (c_now ex_c2) /\ entries "10.0.0.1" [] = 0%nat /\
  (exists pcs ps, run_calls [ex_c1; ex_c2] [0; 1; 0; 1]%nat [Start; Start] [] = Ret (pcs, ps) /\ entries "10.0.0.1" ps = 2%nat) /\
  (exists pcs ps, run_calls [ex_c1; ex_c2] [0; 0; 1; 1]%nat [Start; Start] [] = Ret (pcs, ps) /\ entries "10.0.0.1" ps = 1%nat).
Proof.
  split; [unfold good_now; cbn; lia|]. split; [unfold good_now; cbn; lia|]. split; [reflexivity|].
  split; eexists; eexists; split; vm_compute; reflexivity.
Qed.
