(** * What the tables look like: the properties (proofs) *)

From Verif Require Import GoBase GoFacts FileioFacts Flags SpecFlags Config Shipped SpecWire SarFacts Timestamp SpecTime TimeMain Data SpecFrames Beacon SpecPeers PeersMain Fileio Trans Listen SpecListen Daemon SpecDaemon DaemonMain Sarnet SarnetMain Transfer TransferMain SpecWords Words WordsFacts TextFacts Cli SpecCli SpecRun ShowMain Node SpecNode NodeMain Clock SpecClock ClockFacts ClockMain Table SpecTable TableFacts.
From Coq Require Import Sorted Permutation.
Local Open Scope string_scope.
Local Open Scope N_scope.

(** ** Times *)
Lemma code_first : (819553 <=? code (civil 0) = true)%Z.
Proof. vm_compute. reflexivity. Qed.
Lemma code_last : (code (civil 49710) <=? 876167 = true)%Z.
Proof. vm_compute. reflexivity. Qed.
Lemma year_between : forall f : Z -> date, (forall n k, 0 <= k -> code (f n) + k <= code (f (n + k)))%Z ->
  (819553 <=? code (f 0%Z) = true)%Z -> (code (f 49710%Z) <=? 876167 = true)%Z -> (forall n, real_date (f n)) ->
  forall n, (0 <= n <= 49710)%Z -> (0 <= SpecClock.d_year (f n) < 10000)%Z.
Proof.
  intros f C F G R n H. apply Z.leb_le in F, G. pose proof (C 0 n ltac:(lia))%Z as A. pose proof (C n (49710 - n) ltac:(lia))%Z as B.
  replace (0 + n)%Z with n in A by lia. replace (n + (49710 - n))%Z with 49710%Z in B by lia.
  destruct (R n) as [M D]. pose proof (length_range (SpecClock.d_year (f n)) (SpecClock.d_month (f n))) as L. unfold code in *. lia.
Qed.
Lemma year_range : forall n, (0 <= n <= 49710)%Z -> (0 <= SpecClock.d_year (civil n) < 10000)%Z.
Proof. exact (year_between civil code_mono code_first code_last civil_real). Qed.
Lemma instant_stamp : forall now, good_now now -> instant (stamp_at now) = (unix_secs now * 10 ^ 9 + unix_nanos now)%Z.
Proof.
  intros now [A B]. unfold instant, stamp_at, stamp. cbn [t_header t_secs t_nsecs]. change (3 =? 5) with false. cbv iota.
  unfold signed64. rewrite !(proj2 (N.ltb_lt _ _)) by lia. lia.
Qed.
Lemma stamp_text : forall now, good_now now ->
  exists text, ts_print (stamp_at now) = Ret text /\ utc_text true (instant (stamp_at now)) text /\ slen text = 32%nat.
Proof.
  intros now G. pose proof (instant_stamp now G) as I. destruct G as [A B].
  assert (W : ((unix_secs now * 10 ^ 9 + unix_nanos now) / 10 ^ 9 = unix_secs now)%Z).
  { rewrite Z.add_comm, Z.div_add by lia. rewrite Z.div_small by lia. lia. }
  destruct (c102_print (stamp_at now) {| tl_name := "posix32_32"; tl_secs := 4; tl_nanos := 4 |}) as (text & P & U).
  - unfold stamp_at, stamp. cbn [t_secs]. lia.
  - unfold stamp_at, stamp. cbn [t_nsecs]. lia.
  - reflexivity.
  - rewrite I. unfold writable_instant. rewrite W. lia.
  - change (0 <? 4)%nat with true in U. exists text. split; [exact P|]. split; [exact U|].
    destruct U as (d & h & m & s & y & D & _ & _ & _ & _ & Y & ->).
    assert (YL : slen y = 4%nat).
    { eapply year_four; [|exact Y]. apply day_number_civil in D. rewrite D. apply year_range. rewrite I.
      rewrite (Z.mul_comm 86400), <- Z.div_div by lia. rewrite W. split; [apply Z.div_pos; lia|].
      apply Z.lt_succ_r. apply Z.div_lt_upper_bound; lia. }
    cbv iota. rewrite !append_length, week_length, month_len, day_length, YL. reflexivity.
Qed.

(** ** Widths *)
Lemma longest_cons : forall s l, longest (s :: l) = Nat.max (slen s) (longest l).
Proof. reflexivity. Qed.
Lemma longest_in : forall s l, In s l -> (slen s <= longest l)%nat.
Proof. induction l as [|x l IH]; intros []; rewrite longest_cons; [subst; lia|]. specialize (IH H). lia. Qed.
Lemma longer_max : forall n s, longer n s = Nat.max n (slen s).
Proof. intros n s. unfold longer. destruct (Nat.ltb_spec n (slen s)); lia. Qed.
Lemma fold_longer : forall l n, fold_left longer l n = Nat.max n (longest l).
Proof.
  induction l as [|s l IH]; intros n; cbn [fold_left]; [cbn; lia|]. rewrite IH, longer_max, longest_cons. lia.
Qed.
Definition timed (e : peer * string * string) : Prop := slen (snd (fst e)) = 32%nat /\ slen (snd e) = 32%nat.
Lemma widths_of : forall l w, Forall timed l -> pw_cre w = 32%nat -> pw_mod w = 32%nat ->
  peer_widths w l = {| pw_addr := Nat.max (pw_addr w) (longest (map (fun e => p_addr (fst (fst e))) l));
                       pw_eid := Nat.max (pw_eid w) (longest (map (fun e => p_eid (fst (fst e))) l));
                       pw_rx := Nat.max (pw_rx w) (longest (map (fun e => p_canrx (fst (fst e))) l));
                       pw_tx := Nat.max (pw_tx w) (longest (map (fun e => p_cantx (fst (fst e))) l));
                       pw_cre := 32; pw_mod := 32 |}.
Proof.
  induction l as [|[[p c] u] l IH]; intros w T C M.
  - destruct w. cbn in *. subst. f_equal; lia.
  - inversion T as [|? ? [T1 T2] T3]; subst. cbn [fst snd] in T1, T2. cbn [peer_widths]. rewrite IH; [|exact T3|..]; cbn [pw_addr pw_eid pw_rx pw_tx pw_cre pw_mod].
    + cbn [map fst]. rewrite !longer_max, !longest_cons. f_equal; lia.
    + rewrite longer_max, C, T1. reflexivity.
    + rewrite M, T1. reflexivity.
Qed.
Lemma columns_right : forall l, Forall timed l -> l <> [] ->
  peer_columns (peer_widths {| pw_addr := 0; pw_eid := 0; pw_cre := 0; pw_mod := 0; pw_tx := 0; pw_rx := 0 |} l) = peer_widths_of (map (fun e => fst (fst e)) l).
Proof.
  intros [|[[p c] u] l] T N; [congruence|]. inversion T as [|? ? [T1 T2] T3]; subst. cbn [fst snd] in T1, T2.
  cbn [peer_widths pw_addr pw_eid pw_cre pw_mod pw_tx pw_rx]. rewrite widths_of; [|exact T3|..]; cbn [pw_addr pw_eid pw_rx pw_tx pw_cre pw_mod].
  - unfold peer_columns, peer_widths_of. cbn [pw_addr pw_eid pw_rx pw_tx pw_cre pw_mod map fst]. rewrite !map_map, !longer_max, !longest_cons, !Nat.max_0_l.
    set (e := Nat.max _ (longest (map (fun e => p_eid (fst (fst e))) l))). destruct (Nat.ltb_spec e 3); repeat f_equal; lia.
  - rewrite longer_max, T1. reflexivity.
  - rewrite T1, T2. reflexivity.
Qed.

(** ** Order *)
Lemma sorted_ordered : forall l, StronglySorted (fun a b => String.leb a b = true) l -> ordered l.
Proof.
  intros l H. induction H as [|x l S IH F]; intros i j a b L A B; [destruct i; discriminate|].
  destruct j as [|j]; [lia|]. cbn [nth_error] in B. destruct i as [|i].
  - injection A as <-. rewrite Forall_forall in F. apply F. eapply nth_error_In, B.
  - cbn [nth_error] in A. apply (IH i j); auto; lia.
Qed.
Lemma perm_map_split : forall {A B} (f : A -> B) l m, Permutation l (map f m) -> exists m', Permutation m' m /\ l = map f m'.
Proof.
  intros A B f l m H. apply Permutation_map_inv in H. destruct H as (m' & -> & P). exists m'. split; [symmetry; exact P|reflexivity].
Qed.

(** ** C103 *)
Lemma times_of : forall ps, (forall p, In p ps -> exists c u, good_now c /\ good_now u /\ p_created p = stamp_at c /\ p_updated p = stamp_at u) ->
  exists l, peer_times ps = Ret l /\ map (fun e => fst (fst e)) l = ps /\
    Forall (fun e => timed e /\ utc_text true (instant (p_created (fst (fst e)))) (snd (fst e)) /\ utc_text true (instant (p_updated (fst (fst e)))) (snd e)) l.
Proof.
  induction ps as [|p ps IH]; intros H; [exists []; repeat split; constructor|].
  destruct (H p) as (c & u & GC & GU & C & U); [left; auto|]. destruct IH as (l & E & M & F); [intros; apply H; right; auto|].
  destruct (stamp_text c GC) as (tc & PC & UC & LC). destruct (stamp_text u GU) as (tu & PU & UU & LU).
  exists ((p, tc, tu) :: l)%list. cbn [peer_times]. rewrite C, U, PC, PU, E. cbn [obind]. split; [reflexivity|]. split; [cbn [map fst]; congruence|].
  constructor; [|exact F]. cbn [fst snd]. rewrite C, U. repeat split; auto.
Qed.
Definition fits (ws : list nat) (fields : list string) : Prop := Forall (fun wf => (rune_count (snd wf) <= fst wf)%nat) (combine ws fields).
Lemma aligned_iff : forall b c ws fss, plain b -> plain c -> Forall (fun fields => length fields = length ws) fss ->
  aligned (border_of (String b "") ws :: map (table_row (String c "") ws) fss) <-> Forall (fits ws) fss.
Proof.
  intros b c ws fss PB P R.
  assert (BC : columns (bytes_of (border_of (String b "") ws)) (2 + list_sum (map S ws))%nat).
  { rewrite <- border_row, <- border_width. apply row_columns; [exact PB|apply map_length]. }
  rewrite Forall_forall in R. rewrite Forall_forall. split.
  - intros (n & A) fields I. apply (row_fits ws fields (R _ I)).
    pose proof (columns_fun _ _ _ (A _ (or_introl eq_refl)) BC) as ->.
    exact (columns_fun _ _ _ (row_columns c ws fields P (R _ I)) (A _ (or_intror (in_map _ _ _ I)))).
  - intros H. exists (2 + list_sum (map S ws))%nat. intros l [<-|I]; [exact BC|]. apply in_map_iff in I. destruct I as (fields & <- & I).
    rewrite <- (proj2 (proj2 (row_fits ws fields (R _ I))) (H _ I)). apply row_columns; auto.
Qed.
Lemma will_two : forall v, (2 <= slen (will_name v))%nat.
Proof. intros v. unfold will_name. destruct v as [|p]; [cbn; lia|]. do 2 (destruct p as [p|p|]; try (cbn; lia)). Qed.
Lemma desc_three : forall v, (rune_count (desc_name v) <= 3)%nat <-> desc_name v <> "d128".
Proof.
  assert (A : forall s, (rune_count s <=? 3)%nat = negb (String.eqb s "d128") -> (rune_count s <= 3)%nat <-> s <> "d128").
  { intros s H. rewrite <- Nat.leb_le, H, negb_true_iff. apply String.eqb_neq. }
  intros v. apply A. unfold desc_name. destruct v as [|p]; [reflexivity|]. do 2 (destruct p as [p|p|]; try reflexivity).
Qed.
Lemma rune_longest : forall {A} (f : A -> string) x l, In x l -> (rune_count (f x) <= longest (map f l))%nat.
Proof. intros A f x l I. etransitivity; [apply rune_le|]. apply longest_in, in_map, I. Qed.

Lemma last_in : forall {A} (l : list A) d, In (last l d) (d :: l).
Proof.
  intros A l. induction l as [|x l IH]; intros d; [left; reflexivity|]. rewrite last_shift. destruct (IH x) as [H|H]; [rewrite <- H; right; left; reflexivity|right; right; exact H].
Qed.
Lemma last_change_in : forall l c, last_change l = Some c -> In c l.
Proof.
  induction l as [|s l IH]; intros c H; [discriminate|]. cbn [last_change] in H. destruct l as [|s' l]; [injection H as ->; left; reflexivity|].
  destruct (advert_dec _ _); [right; apply IH; exact H|injection H as ->; left; reflexivity].
Qed.
(** C103: the table of the peers command.  One row for each peer, sorted, under a
    heading and between borders; each row says the peer's address, free space in whole
    gigabytes, endpoint, descriptor, willingness and the UTC times of its first and
    latest change.  The lines of the table take the same number of columns exactly when
    no peer uses 128 bit descriptors and none has a million gigabytes free (defect). *)
Lemma c103_table : forall mtu n, runs_to mtu n -> n_dead n = false -> y_peers (n_cli n) <> [] ->
  let ps := y_peers (n_cli n) in
  exists text head rows,
    peers_text ps = Ret text /\ peers_table ps head rows text /\
    ((exists p, In p ps /\ (2 <= String.length (p_addr p))%nat) ->
     (aligned (border_of "+" (peer_widths_of ps) :: head :: rows) <->
      forall p, In p ps -> p_maxdesc p <> "d128" /\ p_freespace p < 10 ^ 6 * 2 ^ 20)).
Proof.
  intros mtu n R D NE ps. pose proof (nok_reach mtu n R) as K. pose proof (nok_table mtu n K D) as (_ & _ & RT). fold ps in RT, NE.
  assert (GH : forall h, In h (heard_by n) -> good_now (sg_now h)) by (apply (heard_good mtu [] "" (n_net n)); apply K).
  assert (SEEN : forall a x, In x (seen a (heard_by n)) -> good_now (sg_now x)).
  { intros a x I. apply GH. unfold seen in I. apply in_rev in I. apply filter_In in I. tauto. }
  destruct (times_of ps) as (l & E & M & F).
  { intros p I. destruct (RT p I) as (lt & rest & c & S & _ & C & LC & U). exists (sg_now (last rest lt)), (sg_now c).
    split; [|split; [|auto]]; apply (SEEN (p_addr p)); [rewrite S; apply last_in|apply last_change_in, LC]. }
  assert (T : Forall timed l) by (eapply Forall_impl; [|exact F]; cbv beta; tauto).
  assert (NL : l <> []) by (intros ->; cbn in M; congruence).
  pose proof (columns_right l T NL) as W. rewrite M in W.
  set (ws := peer_widths_of ps) in *.
  set (head := table_row "|" ws peer_titles). set (rows := sort_strings (map (fun e => table_row "|" ws (peer_fields e)) l)).
  exists (table_text (border_of "+" ws) head rows), head, rows. split; [|split].
  - unfold peers_text. rewrite E. cbn [obind]. cbv zeta. rewrite W, border_row. reflexivity.
  - split; [reflexivity|]. split; [apply table_row_row; reflexivity|]. split; [apply sorted_ordered, sort_sorted|].
    pose proof (sort_perm (map (fun e => table_row "|" ws (peer_fields e)) l)) as P. fold rows in P.
    destruct (perm_map_split _ _ _ P) as (l' & P' & ER). exists (map (fun e => fst (fst e)) l'). split.
    + rewrite <- M. apply Permutation_map, P'.
    + rewrite ER. assert (F' : Forall (fun e => timed e /\ utc_text true (instant (p_created (fst (fst e)))) (snd (fst e)) /\ utc_text true (instant (p_updated (fst (fst e)))) (snd e)) l').
      { rewrite Forall_forall in *. intros e I. apply F. eapply Permutation_in; eauto. }
      clear - F'. induction F' as [|e l' (T & U1 & U2) F IH]; [constructor|]. cbn [map]. constructor; [|exact IH].
      destruct e as [[p cre] upd]. cbn [fst snd] in *. exists cre, upd. split; [exact U1|]. split; [exact U2|].
      change (2 ^ 20) with (1024 * 1024). rewrite <- N.div_div by lia. apply table_row_row. reflexivity.
  - intros (p0 & I0 & L0).
    assert (AL : aligned (border_of "+" ws :: map (table_row "|" ws) (peer_titles :: map peer_fields l)) <-> Forall (fits ws) (peer_titles :: map peer_fields l)).
    { apply aligned_iff; [reflexivity|reflexivity|]. constructor; [reflexivity|]. apply Forall_forall. intros fs I. apply in_map_iff in I.
      destruct I as ([[p c] u] & <- & _). reflexivity. }
    assert (SAME : aligned (border_of "+" ws :: head :: rows) <-> aligned (border_of "+" ws :: map (table_row "|" ws) (peer_titles :: map peer_fields l))).
    { assert (Z : forall line, In line rows <-> In line (map (table_row "|" ws) (map peer_fields l))).
      { intros line. unfold rows. rewrite map_map. split; apply Permutation_in; [|symmetry]; apply sort_perm. }
      cbn [map]. fold head. split; intros (k & A); exists k; intros line [I|[I|I]]; apply A; cbn [In]; auto; right; right; apply Z; exact I. }
    rewrite SAME, AL. clear SAME AL.
    assert (TF : fits ws peer_titles).
    { assert (RX : (2 <= longest (map p_canrx ps))%nat).
      { destruct (RT p0 I0) as (lt & _ & _ & _ & S & _). apply shows_eq in S. destruct S as (_ & _ & _ & S & _).
        etransitivity; [|apply longest_in, in_map, I0]. rewrite S. apply will_two. }
      assert (TX : (2 <= longest (map p_cantx ps))%nat).
      { destruct (RT p0 I0) as (lt & _ & _ & _ & S & _). apply shows_eq in S. destruct S as (_ & _ & _ & _ & S).
        etransitivity; [|apply longest_in, in_map, I0]. rewrite S. apply will_two. }
      assert (AD : (2 <= longest (map p_addr ps))%nat) by (etransitivity; [exact L0|apply longest_in, in_map, I0]).
      unfold fits, ws, peer_widths_of, peer_titles. cbn [combine].
      repeat apply Forall_cons; try apply Forall_nil; cbn [fst snd]; match goal with |- (rune_count ?s <= _)%nat => let r := eval vm_compute in (rune_count s) in change (rune_count s) with r end; lia. }
    split.
    + intros A p I. inversion A as [|? ? _ A']; subst. rewrite <- M in I. apply in_map_iff in I. destruct I as (e & EP & I).
      rewrite Forall_forall in A'. specialize (A' _ (in_map peer_fields _ _ I)). destruct e as [[p' c] u]. cbn [fst] in EP. subst p'.
      unfold fits, ws, peer_widths_of, peer_fields in A'. cbn [combine] in A'.
      inversion A' as [|? ? _ A2]; subst. inversion A2 as [|? ? GB A3]; subst. inversion A3 as [|? ? _ A4]; subst. inversion A4 as [|? ? DE _]; subst.
      cbn [fst snd] in GB, DE. rewrite N.div_div in GB by lia. apply itoa_fits in GB; [|lia]. split.
      * assert (IP : In p ps) by (rewrite <- M; apply in_map_iff; exists (p, c, u); auto). destruct (RT p IP) as (lt & _ & _ & _ & S & _).
        apply shows_eq in S. destruct S as (_ & _ & S & _). rewrite S in DE |- *. apply desc_three, DE.
      * change (1024 * 1024) with (2 ^ 20) in GB. change (N.of_nat 6) with 6 in GB.
        pose proof (N.mod_lt (p_freespace p) (2 ^ 20) ltac:(lia)). pose proof (N.div_mod (p_freespace p) (2 ^ 20) ltac:(lia)). lia.
    + intros A. constructor; [exact TF|]. apply Forall_forall. intros fs I. apply in_map_iff in I. destruct I as ([[p c] u] & <- & I).
      assert (IP : In p ps) by (rewrite <- M; apply in_map_iff; exists (p, c, u); auto). destruct (A p IP) as [DE GB].
      rewrite Forall_forall in T. pose proof (T _ I) as [T1 T2]. cbn [fst snd] in T1, T2.
      unfold fits, ws, peer_widths_of, peer_fields. cbn [combine]. repeat apply Forall_cons; try apply Forall_nil; cbn [fst snd].
      * apply (rune_longest p_addr), IP.
      * rewrite N.div_div by lia. apply (itoa_fits _ 6 ltac:(lia)). change (1024 * 1024) with (2 ^ 20). apply N.div_lt_upper_bound; [discriminate|]. rewrite N.mul_comm. exact GB.
      * pose proof (rune_longest p_eid p ps IP). lia.
      * destruct (RT p IP) as (lt & _ & _ & _ & S & _). apply shows_eq in S. destruct S as (_ & _ & S & _). rewrite S in DE |- *. apply desc_three, DE.
      * apply (rune_longest p_canrx), IP.
      * apply (rune_longest p_cantx), IP.
      * rewrite <- T1. apply rune_le.
      * rewrite <- T2. apply rune_le.
Qed.
(** The program has heard one beacon *)
Example c103_table_ex : runs_to 1500 ex_node_now /\ n_dead ex_node_now = false /\ map p_addr (y_peers (n_cli ex_node_now)) = ["10.0.0.1"] /\
  peers_text (y_peers (n_cli ex_node_now)) = Ret
"+--------+------+----+---+--+--+--------------------------------+--------------------------------+
|      IP|    GB| EID|Des|Rx|Tx|                         Created|                        Modified|
+--------+------+----+---+--+--+--------------------------------+--------------------------------+
|10.0.0.1|     0|eid!|d16|no|no|Tue Nov 14 22:13:20.000 2023 UTC|Tue Nov 14 22:13:20.000 2023 UTC|
+--------+------+----+---+--+--+--------------------------------+--------------------------------+
".
Proof. split; [exact ex_node_runs|]. repeat split; vm_compute; reflexivity. Qed.
(** A peer with 128 bit descriptors has a longer row *)
Example c103_longer_ex :
  let at_ := stamp_at {| unix_secs := 1700000000; unix_nanos := 5 |} in
  let p a f e d := {| p_addr := a; p_freespace := f; p_eid := e; p_maxdesc := d; p_canrx := "yes"; p_cantx := "no"; p_created := at_; p_updated := at_ |} in
  peers_text [p "10.0.0.17" 52428800 "e" "d128"; p "10.0.0.1" 0 "other" "d32"] = Ret
"+---------+------+-----+---+---+--+--------------------------------+--------------------------------+
|       IP|    GB|  EID|Des| Rx|Tx|                         Created|                        Modified|
+---------+------+-----+---+---+--+--------------------------------+--------------------------------+
| 10.0.0.1|     0|other|d32|yes|no|Tue Nov 14 22:13:20.000 2023 UTC|Tue Nov 14 22:13:20.000 2023 UTC|
|10.0.0.17|    50|    e|d128|yes|no|Tue Nov 14 22:13:20.000 2023 UTC|Tue Nov 14 22:13:20.000 2023 UTC|
+---------+------+-----+---+---+--+--------------------------------+--------------------------------+
".
Proof. vm_compute. reflexivity. Qed.

(** ** C104 *)
(** C104: the table of transfers.  One row for each transfer, sorted, under a heading
    and between borders; each row says the transfer's type, peer and file, and that the
    program initiated it, even if it answers a peer (defect).  That word is wider than
    its column, so the lines of the table never take the same number of columns
    (defect). *)
Lemma c104_table : forall ts, exists head rows,
  transfers_table (fun t => ["Initiator"; tr_ttype t; udpaddr_string (tr_peer t); tr_filename t]) ts head rows (info_text ts) /\
  (ts <> [] -> ~ aligned (border_of "|" (transfer_widths_of ts) :: rows)).
Proof.
  intros ts. set (ws := transfer_widths_of ts). set (says := fun t => ["Initiator"; tr_ttype t; udpaddr_string (tr_peer t); tr_filename t]).
  set (head := table_row "|" ws ["Direct"; "Tran Typ"; "IP"; "Fname"]). set (rows := sort_strings (map (fun t => table_row "|" ws (says t)) ts)).
  exists head, rows.
  pose proof (sort_perm (map (fun t => table_row "|" ws (says t)) ts)) as P. fold rows in P.
  split; [split; [|split; [|split]]|].
  - unfold info_text, transfers_text. rewrite !map_map. cbn [fst snd]. rewrite !fold_longer, !Nat.max_0_l.
    change [6%nat; 8%nat; longest (map (fun t => udpaddr_string (tr_peer t)) ts); longest (map (fun t => tr_filename t) ts)] with ws.
    rewrite border_row. reflexivity.
  - apply table_row_row. reflexivity.
  - apply sorted_ordered, sort_sorted.
  - destruct (perm_map_split _ _ _ P) as (ts' & P' & ->). exists ts'. split; [exact P'|]. fold ws. clear.
    induction ts' as [|t ts' IH]; [constructor|]. cbn [map]. constructor; [apply table_row_row; reflexivity|exact IH].
  - intros NE A. destruct ts as [|t ts]; [congruence|].
    assert (AL : aligned (border_of "|" ws :: map (table_row "|" ws) (map says (t :: ts)))).
    { destruct A as (k & A). exists k. intros line [I|I]; apply A; [left; exact I|right]. rewrite map_map in I. eapply Permutation_in; [symmetry; exact P|exact I]. }
    apply aligned_iff in AL; [|reflexivity|reflexivity|apply Forall_forall; intros fs I; apply in_map_iff in I; destruct I as (u & <- & _); reflexivity].
    cbn [map] in AL. inversion AL as [|? ? F _]; subst. unfold fits, ws, transfer_widths_of, says in F. cbn [combine] in F.
    inversion F as [|? ? F1 _]; subst. cbn [fst snd] in F1. vm_compute in F1. lia.
Qed.
(** Two transfers, the second the answer to a peer *)
Example c104_table_ex :
  let t := ex_transfer 3 ex_peer "b.txt" in
  let answer := {| tr_direction := false; tr_session := 4; tr_conn := tr_conn t; tr_peer := ex_peer; tr_ttype := "put"; tr_tstamptype := ""; tr_filename := "a";
    tr_fp := None; tr_filemeta := None; tr_csumtype := ""; tr_havemeta := false; tr_checksum := []; tr_dir := None; tr_data := []; tr_progress := 0; tr_inrespto := 0;
    tr_curfills := []; tr_cliflags := None |} in
  transfer_print answer = "Responder|put|10.0.0.1:7542|a" /\
  info_text [t; answer] =
"|------|--------|-------------|-----|
|Direct|Tran Typ|           IP|Fname|
|------|--------|-------------|-----|
|Initiator|     get|10.0.0.1:7542|b.txt|
|Initiator|     put|10.0.0.1:7542|    a|
|------|--------|-------------|-----|
".
Proof. vm_compute. split; reflexivity. Qed.
