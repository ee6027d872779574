(** * Transfers: lemmas behind the properties *)

From Verif Require Import GoBase GoFacts Flags SpecFlags FlagsFacts FlagStrFacts Config Shipped ConfigFacts FlagsMain SpecWire SarFacts Timestamp SpecTime TimeMain SpecFrames FrameFacts BuildFacts Holes Data Status SpecStatus StatusMain Request Fileio SpecFileio FileioFacts Dirent Metadata Trans Sarnet Transfer SpecTransfer.
Local Open Scope string_scope.
Local Open Scope N_scope.

(** ** Session ids *)
Lemma session_id_S : forall pid k, session_id pid (S k) = newsession pid (session_id pid k).
Proof. reflexivity. Qed.

(** C61: the ids count up from the process id, through 0, and start again. *)
Lemma c61_sequence : forall pid k, pid < 2 ^ 32 ->
  session_id pid k = (pid + 1 + N.of_nat k mod (2 ^ 32 - pid)) mod 2 ^ 32.
Proof.
  intros pid k P. set (Q := 2 ^ 32 - pid). assert (Q0 : 0 < Q) by (unfold Q; lia).
  assert (QE : pid + Q = 2 ^ 32) by (unfold Q; lia). clearbody Q.
  change (2 ^ 32) with 4294967296 in *.
  assert (U : u32 pid = pid) by (unfold u32, wrap; change (2 ^ 32) with 4294967296; apply N.mod_small; lia).
  induction k as [|k IH].
  - change (session_id pid 0) with (newsession pid 0). unfold newsession. cbn [N.eqb].
    rewrite U. unfold u32, wrap. change (2 ^ 32) with 4294967296. change (N.of_nat 0) with 0. rewrite N.mod_small with (b := Q) by lia.
    f_equal. lia.
  - rewrite session_id_S, IH. unfold newsession. rewrite U. unfold u32, wrap. change (2 ^ 32) with 4294967296.
    rewrite Nat2N.inj_succ. set (n := N.of_nat k) in *. clearbody n.
    assert (R : n mod Q < Q) by (apply N.mod_lt; lia).
    assert (D : n = Q * (n / Q) + n mod Q) by (apply N.div_mod; lia).
    set (r := n mod Q) in *. set (q := n / Q) in *. clearbody r q.
    destruct (N.eq_dec r (Q - 1)) as [E|E].
    + assert (E1 : (pid + 1 + r) mod 4294967296 = 0).
      { rewrite E. replace (pid + 1 + (Q - 1)) with 4294967296 by lia. reflexivity. }
      rewrite E1. cbn [N.eqb].
      assert (E2 : N.succ n mod Q = 0).
      { replace (N.succ n) with ((q + 1) * Q); [apply N.mod_mul; lia|]. rewrite N.mul_add_distr_r, (N.mul_comm q). lia. }
      rewrite E2. f_equal. lia.
    + assert (E1 : (pid + 1 + r) mod 4294967296 = pid + 1 + r) by (apply N.mod_small; lia).
      rewrite E1. destruct (N.eqb_spec (pid + 1 + r) 0); [lia|].
      assert (E2 : N.succ n mod Q = r + 1).
      { symmetry. apply N.mod_unique with q; lia. }
      rewrite E2. f_equal. lia.
Qed.
(** C61: two calls get the same id exactly when they are a multiple of 2^32 - pid calls
    apart; so the first 2^32 - pid ids are distinct. *)
Lemma c61_equal_iff : forall pid i j, pid < 2 ^ 32 ->
  (session_id pid i = session_id pid j <-> N.of_nat i mod (2 ^ 32 - pid) = N.of_nat j mod (2 ^ 32 - pid)) /\
  (N.of_nat i < 2 ^ 32 - pid -> N.of_nat j < 2 ^ 32 - pid -> session_id pid i = session_id pid j -> i = j).
Proof.
  intros pid i j P.
  assert (X : session_id pid i = session_id pid j <-> N.of_nat i mod (2 ^ 32 - pid) = N.of_nat j mod (2 ^ 32 - pid)).
  { rewrite !c61_sequence by auto. split; [|now intros ->]. intros E.
    set (Q := 2 ^ 32 - pid) in *. assert (Q0 : 0 < Q) by (unfold Q; lia). assert (QE : pid + Q = 2 ^ 32) by (unfold Q; lia).
    clearbody Q. change (2 ^ 32) with 4294967296 in *.
    assert (R : N.of_nat i mod Q < Q) by (apply N.mod_lt; lia).
    assert (R' : N.of_nat j mod Q < Q) by (apply N.mod_lt; lia).
    set (a := N.of_nat i mod Q) in *. set (b := N.of_nat j mod Q) in *. clearbody a b.
    assert (M : forall x, x < Q -> (pid + 1 + x) mod 4294967296 = if x =? Q - 1 then 0 else pid + 1 + x).
    { intros x Hx. destruct (N.eqb_spec x (Q - 1)).
      - replace (pid + 1 + x) with 4294967296 by lia. reflexivity.
      - apply N.mod_small. lia. }
    rewrite !M in E by auto. destruct (N.eqb_spec a (Q - 1)); destruct (N.eqb_spec b (Q - 1)); lia. }
  split; auto. intros Hi Hj E. apply X in E. rewrite !N.mod_small in E by auto. lia.
Qed.
Example c61_ex : session_id 4321 0 = 4322 /\ session_id 4321 1 = 4323 /\
  session_id 4294967294 0 = 4294967295 /\ session_id 4294967294 1 = 0 /\ session_id 4294967294 2 = 4294967295.
Proof. repeat split. Qed.

(** ** The table *)
Lemma is_transfer_key : forall d s p t, is_transfer d s p t = true <-> key_is d s p t.
Proof.
  intros d s p t. unfold is_transfer, key_is. rewrite !andb_true_iff, Bool.eqb_true_iff, N.eqb_eq, String.eqb_eq.
  split; intros H; decompose [and] H; auto.
Qed.
Lemma tlookup_loop_spec : forall l d s p,
  match tlookup_loop l d s p with
  | None => forall t, In t l -> ~ key_is d s p t
  | Some t => exists i, nth_error l i = Some t /\ key_is d s p t /\ forall j u, (j < i)%nat -> nth_error l j = Some u -> ~ key_is d s p u
  end.
Proof.
  induction l as [|x l IH]; intros d s p; cbn [tlookup_loop]; [intros t []|].
  destruct (is_transfer d s p x) eqn:E.
  - exists O. split; [reflexivity|]. split; [apply is_transfer_key; auto|]. intros; lia.
  - assert (N : ~ key_is d s p x) by (rewrite <- is_transfer_key, E; discriminate).
    specialize (IH d s p). destruct (tlookup_loop l d s p) as [t|].
    + destruct IH as (i & H1 & H2 & H3). exists (Datatypes.S i). split; [auto|]. split; [auto|].
      intros [|j] u L Hu; cbn in Hu; [congruence|]. apply (H3 j); auto; lia.
    + intros t [<-|I]; auto.
Qed.

(** C62: removing a transfer of the table removes the last one. *)
Lemma c62_removes_last : forall l t, (exists u, In u l /\ same_key t u) -> tremove l t = (removelast l, None).
Proof.
  intros l t (u & Iu & K). unfold tremove.
  destruct l as [|x l] using rev_ind; [destruct Iu|]. clear IHl.
  rewrite app_length. cbn [length]. rewrite Nat.add_1_r. cbn [tremove_loop].
  pose proof (tlookup_loop_spec (l ++ [x]) (tr_direction t) (tr_session t) (udpaddr_string (tr_peer t))) as S.
  destruct (tlookup_loop _ _ _ _) as [v|].
  - rewrite removelast_last. f_equal. rewrite firstn_app, firstn_all, Nat.sub_diag. cbn [firstn].
    rewrite skipn_app, skipn_all2 by lia. replace (Datatypes.S (length l) - length l)%nat with 1%nat by lia. cbn [skipn].
    now rewrite !app_nil_r.
  - exfalso. apply (S u); auto.
Qed.
(** C62: one that is not in the table removes none, and says which one it was. *)
Lemma c62_reported : forall l t, (forall u, In u l -> ~ same_key t u) ->
  tremove l t = (l, Some ("Cannot remove " ++ (if tr_direction t then "Initiator" else "Responder") ++ " Transfer for session " ++ itoa (tr_session t) ++
                          " to " ++ udpaddr_string (tr_peer t))).
Proof.
  intros l t A. unfold tremove.
  assert (X : forall n, tremove_loop l t n = None).
  { induction n as [|n IH]; [reflexivity|]. cbn [tremove_loop].
    pose proof (tlookup_loop_spec l (tr_direction t) (tr_session t) (udpaddr_string (tr_peer t))) as S.
    destruct (tlookup_loop _ _ _ _) as [v|]; [|exact IH].
    destruct S as (i & H & K & _). exfalso. apply (A v); auto. eapply nth_error_In; eauto. }
  rewrite X. reflexivity.
Qed.
(** C62: and one that is not in the table none. *)
Lemma c62_absent : forall l t, (forall u, In u l -> ~ same_key t u) -> exists e, tremove l t = (l, Some e).
Proof. intros l t A. eexists. apply c62_reported, A. Qed.
(** C62: so the requested one is gone exactly when it was the last. *)
Lemma c62_right_iff_last : forall l i t, nth_error l i = Some t ->
  (forall j u, nth_error l j = Some u -> same_key t u -> j = i) ->
  ((forall u, In u (fst (tremove l t)) -> ~ same_key t u) <-> Datatypes.S i = length l).
Proof.
  intros l i t H U.
  assert (KT : same_key t t) by (repeat split).
  rewrite c62_removes_last by (exists t; split; auto; eapply nth_error_In; eauto). cbn [fst].
  destruct l as [|x l _] using rev_ind; [destruct i; discriminate|].
  rewrite removelast_last, app_length. cbn [length]. split.
  - intros N. assert (L : (i < length (l ++ [x]))%nat) by (apply nth_error_Some; congruence).
    rewrite app_length in L; cbn [length] in L.
    destruct (Nat.eq_dec i (length l)); [lia|]. exfalso.
    rewrite nth_error_app1 in H by lia. apply (N t); auto. eapply nth_error_In; eauto.
  - intros E u Iu K. apply In_nth_error in Iu. destruct Iu as (j & Hj).
    assert (L : (j < length l)%nat) by (apply nth_error_Some; congruence).
    specialize (U j u). rewrite nth_error_app1 in U by auto. specialize (U Hj K). lia.
Qed.

(** C63: looking up: the first transfer with that key, or nothing. *)
Lemma c63_lookup : forall m d s p, let (m', r) := tlookup m d s p in
  tm_table m' = tm_table m /\
  match r with
  | None => forall t, In t (tm_table m) -> ~ key_is d s p t
  | Some q => exists i t, nth_error (tm_table m) i = Some t /\ key_is d s p t /\
                (forall j u, (j < i)%nat -> nth_error (tm_table m) j = Some u -> ~ key_is d s p u) /\
                tread m' q = Some t
  end.
Proof.
  intros m d s p. unfold tlookup. pose proof (tlookup_loop_spec (tm_table m) d s p) as S.
  destruct (tlookup_loop _ _ _ _) as [t|]; cbn [tm_table]; split; auto.
  destruct S as (i & H1 & H2 & H3). exists i, t. repeat split; auto; try apply H2.
  cbn [tread tm_cells]. rewrite nth_error_app2, Nat.sub_diag by lia. reflexivity.
Qed.
Lemma tset_nth : forall l i t j, (i < length l)%nat -> nth_error (tset l i t) j = if Nat.eqb i j then Some t else nth_error l j.
Proof.
  induction l as [|x l IH]; intros i t j L; [cbn in L; lia|]. cbn [length] in L.
  destruct i; destruct j; cbn [tset nth_error Nat.eqb]; auto. apply IH. lia.
Qed.
Lemma tset_length : forall l i t, length (tset l i t) = length l.
Proof. induction l as [|x l IH]; intros [|i] t; cbn; auto. Qed.
(** C63: what is changed through the result never shows in the table. *)
Lemma c63_copy : forall m d s p m' q t, tlookup m d s p = (m', Some q) ->
  tm_table (twrite m' q t) = tm_table m /\ tread (twrite m' q t) q = Some t.
Proof.
  intros m d s p m' q t H. unfold tlookup in H. destruct (tlookup_loop _ _ _ _) as [u|]; inversion H; subst. clear H.
  cbn [twrite tm_table tm_cells tread]. split; auto.
  rewrite tset_nth by (rewrite app_length; cbn [length]; lia). now rewrite Nat.eqb_refl.
Qed.

Lemma remote_string_spec : forall t, match remote_string (tr_conn t) with
  | Ret a => forall b, connected_to b t <-> b = a
  | Panic => ~ connected t
  | Fatal => False
  end.
Proof.
  intros t. unfold remote_string. destruct (tr_conn t) as [c|] eqn:E; [destruct (uc_remote c) as [a|] eqn:F|].
  - intros b. split.
    + intros (c' & a' & H1 & H2 & H3). congruence.
    + intros ->. exists c, a. auto.
  - intros (b & c' & a' & H1 & H2 & H3). congruence.
  - intros (b & c' & a' & H1 & H2 & H3). congruence.
Qed.
(** The entries from [n] on are connected, and are not for this address and session *)
Definition passed (l : list transfer) (addr : string) (session : N) (i : nat) : Prop :=
  forall j u, (i <= j)%nat -> nth_error l j = Some u -> connected u /\ ~ (connected_to addr u /\ tr_session u = session).
Lemma tmatch_loop_spec : forall l addr session n, (n <= length l)%nat -> passed l addr session n ->
  match tmatch_loop l n addr session with
  | Ret (Some q) => exists i t, q = PSlot i /\ nth_error l i = Some t /\ connected_to addr t /\ tr_session t = session /\ passed l addr session (Datatypes.S i)
  | Ret None => passed l addr session 0
  | Panic => exists i t, nth_error l i = Some t /\ ~ connected t /\ passed l addr session (Datatypes.S i)
  | Fatal => False
  end.
Proof.
  intros l addr session. induction n as [|n IH]; intros L P; cbn [tmatch_loop]; [exact P|].
  unfold index. destruct (nth_error l n) as [t|] eqn:E; [|apply nth_error_None in E; lia]. cbn [obind].
  pose proof (remote_string_spec t) as RS. destruct (remote_string (tr_conn t)) as [a| |]; cbn [obind]; [| |contradiction].
  - destruct (String.eqb_spec addr a) as [->|NA].
    + cbn [andb]. destruct (N.eqb_spec session (tr_session t)) as [->|NS].
      * exists n, t. split; [reflexivity|]. split; [exact E|]. split; [apply RS; reflexivity|]. split; [reflexivity|exact P].
      * apply IH; [lia|]. intros j u Lj Hj. destruct (Nat.eq_dec j n) as [->|]; [|apply (P j u); auto; lia].
        rewrite E in Hj; inversion Hj; subst u. split; [exists a; apply RS; auto|]. intros [_ X]; congruence.
    + cbn [andb]. apply IH; [lia|]. intros j u Lj Hj. destruct (Nat.eq_dec j n) as [->|]; [|apply (P j u); auto; lia].
      rewrite E in Hj; inversion Hj; subst u. split; [exists a; apply RS; auto|]. intros [X _]. apply RS in X. congruence.
  - exists n, t. auto.
Qed.
(** C63: matching by address and session finds the last such transfer, in the table itself,
    and panics exactly when it meets a transfer without a connection first. *)
Lemma c63_match : forall l addr session,
  let here t := connected_to addr t /\ tr_session t = session in
  let not_after i := forall j u, (i < j)%nat -> nth_error l j = Some u -> connected u /\ ~ here u in
  (forall q, tmatch l addr session = Ret (Some q) <-> exists i t, q = PSlot i /\ nth_error l i = Some t /\ here t /\ not_after i) /\
  (tmatch l addr session = Ret None <-> forall u, In u l -> connected u /\ ~ here u) /\
  (tmatch l addr session = Panic <-> exists i t, nth_error l i = Some t /\ ~ connected t /\ not_after i) /\
  tmatch l addr session <> Fatal.
Proof.
  intros l addr session here not_after.
  assert (P0 : passed l addr session (length l)).
  { intros j u Lj Hj. assert (j < length l)%nat by (apply nth_error_Some; congruence). lia. }
  pose proof (tmatch_loop_spec l addr session (length l) (le_n _) P0) as S. fold (tmatch l addr session) in S.
  (* the three descriptions exclude one another *)
  assert (X1 : forall i t i' t', nth_error l i = Some t -> here t -> nth_error l i' = Some t' -> here t' -> not_after i -> not_after i' -> i = i').
  { intros i t i' t' H1 H2 H3 H4 N1 N2. destruct (Nat.lt_trichotomy i i') as [L|[L|L]]; auto; exfalso.
    - destruct (N1 i' t'); auto.
    - destruct (N2 i t); auto. }
  assert (X2 : forall i t i' t', nth_error l i = Some t -> here t -> nth_error l i' = Some t' -> ~ connected t' -> not_after i -> not_after i' -> False).
  { intros i t i' t' H1 H2 H3 H4 N1 N2. destruct (Nat.lt_trichotomy i i') as [L|[L|L]].
    - destruct (N1 i' t'); auto.
    - subst. rewrite H1 in H3; inversion H3; subst. apply H4. exists addr. apply H2.
    - destruct (N2 i t); auto. }
  assert (ND : forall i, passed l addr session (Datatypes.S i) -> not_after i).
  { intros i P j u Lj Hj. apply (P j u); auto. }
  destruct (tmatch l addr session) as [[q|]| |]; [| | |contradiction].
  - destruct S as (i & t & -> & H1 & H2 & H3 & H4). apply ND in H4. assert (HH : here t) by (split; auto).
    split; [|split; [|split; [|discriminate]]].
    + intros q. split.
      * intros E; inversion E; subst. exists i, t; auto.
      * intros (i' & t' & -> & H1' & H2' & H3'). rewrite (X1 i t i' t'); auto.
    + split; [discriminate|]. intros A. exfalso. destruct (A t); auto. eapply nth_error_In; eauto.
    + split; [discriminate|]. intros (i' & t' & H1' & H2' & H3'). exfalso. eapply (X2 i t i' t'); eauto.
  - assert (A : forall u, In u l -> connected u /\ ~ here u).
    { intros u Iu. apply In_nth_error in Iu. destruct Iu as (j & Hj). apply (S j u); auto; lia. }
    split; [|split; [|split; [|discriminate]]].
    + intros q. split; [discriminate|]. intros (i' & t' & -> & H1' & H2' & H3'). exfalso.
      destruct (A t'); auto. eapply nth_error_In; eauto.
    + split; auto.
    + split; [discriminate|]. intros (i' & t' & H1' & H2' & H3'). exfalso. destruct (A t'); auto. eapply nth_error_In; eauto.
  - destruct S as (i & t & H1 & H2 & H4). apply ND in H4.
    split; [|split; [|split; [|discriminate]]].
    + intros q. split; [discriminate|]. intros (i' & t' & -> & H1' & H2' & H3'). exfalso. eapply (X2 i' t' i t); eauto.
    + split; [discriminate|]. intros A. exfalso. destruct (A t); auto. eapply nth_error_In; eauto.
    + split; auto. intros _. exists i, t; auto.
Qed.
(** C63: what is changed through that result shows in the table, and only there. *)
Lemma c63_match_in_place : forall m addr session i t, tmatch (tm_table m) addr session = Ret (Some (PSlot i)) ->
  tread (twrite m (PSlot i) t) (PSlot i) = Some t /\
  forall j, j <> i -> nth_error (tm_table (twrite m (PSlot i) t)) j = nth_error (tm_table m) j.
Proof.
  intros m addr session i t H.
  destruct (c63_match (tm_table m) addr session) as (A & _). apply A in H. destruct H as (i' & u & E & Hi & _).
  inversion E; subst i'. assert (L : (i < length (tm_table m))%nat) by (apply nth_error_Some; congruence).
  cbn [twrite tread tm_table]. rewrite tset_nth by auto. rewrite Nat.eqb_refl. split; auto.
  intros j N. rewrite tset_nth by auto. destruct (Nat.eqb_spec i j); congruence.
Qed.

Definition ex_peer : udpaddr := {| ua_ip := "10.0.0.1"; ua_port := 7542; ua_zone := "" |}.
Definition ex_peer2 : udpaddr := {| ua_ip := "fe80::1"; ua_port := 7542; ua_zone := "eth0" |}.
Definition ex_transfer (session : N) (peer : udpaddr) (fname : string) : transfer :=
  {| tr_direction := initiator; tr_session := session; tr_conn := Some {| uc_remote := Some peer |}; tr_peer := peer;
     tr_ttype := "get"; tr_tstamptype := "posix32"; tr_filename := fname; tr_fp := None; tr_filemeta := None; tr_csumtype := "";
     tr_havemeta := false; tr_checksum := []; tr_dir := None; tr_data := []; tr_progress := 0; tr_inrespto := 0;
     tr_curfills := []; tr_cliflags := None |}.
Definition ex_table : list transfer := [ex_transfer 7 ex_peer "a"; ex_transfer 8 ex_peer2 "b"; ex_transfer 9 ex_peer "c"].
Example c62_ex :
  (exists u, In u ex_table /\ same_key (ex_transfer 7 ex_peer "a") u) /\
  tremove ex_table (ex_transfer 7 ex_peer "a") = ([ex_transfer 7 ex_peer "a"; ex_transfer 8 ex_peer2 "b"], None) /\
  snd (tremove ex_table (ex_transfer 6 ex_peer "a")) <> None.
Proof.
  split; [|split; [reflexivity|discriminate]]. exists (ex_transfer 7 ex_peer "a"). split; [left; reflexivity|]. repeat split.
Qed.
Example c63_ex :
  (exists m' q, tlookup {| tm_table := ex_table; tm_cells := [] |} initiator 8 "[fe80::1%eth0]:7542" = (m', Some q) /\
                tread m' q = Some (ex_transfer 8 ex_peer2 "b")) /\
  tmatch ex_table "10.0.0.1:7542" 9 = Ret (Some (PSlot 2)) /\ tmatch ex_table "10.0.0.1:7542" 8 = Ret None /\
  tmatch [] "" 1 = Ret None.
Proof. split; [do 2 eexists; split; reflexivity|]. repeat split. Qed.

(** ** Metadata *)
Lemma getstr_reads : forall f fl h v, lookup f (t_flags sar) = Some fl -> (sf_getstr sar h f = Ret v <-> reads sar h f v).
Proof.
  intros f fl h v L. rewrite (getstr_field f fl h L). destruct (wf_lookup _ _ _ sar_wf L) as (_ & _ & W3 & W4). split.
  - intros H. apply opt_name_Ret in H. exists fl, (bit_field 32 (f_msb fl) (f_len fl) h). split; auto. split; auto. apply In_lookup; auto.
  - intros (fl' & n & H1 & H2 & H3). assert (fl' = fl) by congruence. subst fl' n. apply opt_name_found; auto. apply lookup_In; auto.
Qed.
(** C64: what metadata does to a transfer. *)
Lemma c64_change : forall memory t m, memory < 2 ^ 63 -> N.of_nat (length (tr_data t)) < 2 ^ 63 -> de_size (m_dir m) < 2 ^ 64 ->
  let size := de_size (m_dir m) in
  ((exists ty, reads sar (m_header m) "csumtype" ty) ->
    if Nat.eqb (length (tr_data t)) 0 then
      if size <=? memory
      then exists t', tchange memory t m = Ret (t', None) /\ same_otherwise t t' /\ describes m t' /\
             tr_data t' = zeros (N.to_nat size) /\ tr_havemeta t' = true
      else tchange memory t m = Panic
    else if N.of_nat (length (tr_data t)) =? size
      then exists t', tchange memory t m = Ret (t', None) /\ same_otherwise t t' /\ describes m t' /\
             tr_data t' = tr_data t /\ tr_havemeta t' = true
      else exists t', tchange memory t m =
               Ret (t', Some ("Size of File Differs - Old=" ++ itoa (N.of_nat (length (tr_data t))) ++ " New=" ++ itoa size)) /\ same_otherwise t t' /\ describes m t' /\
             tr_data t' = tr_data t /\ tr_havemeta t' = tr_havemeta t) /\
  ((forall ty, ~ reads sar (m_header m) "csumtype" ty) -> tchange memory t m = Fatal).
Proof.
  intros memory t m M LD SZ size. unfold tchange.
  assert (LK : exists fl, lookup "csumtype" (t_flags sar) = Some fl) by (eexists; vm_compute; reflexivity).
  destruct LK as (fl & LK).
  assert (CP : dirent_copy (m_dir m) = m_dir m) by (unfold dirent_copy; destruct (m_dir m); reflexivity).
  rewrite CP. fold size. fold size in SZ. split.
  - intros (ty & R). pose proof R as R0. apply (proj2 (getstr_reads _ _ _ _ LK)) in R. rewrite R. cbn [obind].
    assert (I : size < 2 ^ 63 -> i64_of_N size = Z.of_N size).
    { intros X. unfold i64_of_N. rewrite N.mod_small by auto. apply N.ltb_lt in X. rewrite X. reflexivity. }
    assert (J : 2 ^ 63 <= size -> (i64_of_N size < 0)%Z).
    { intros X. unfold i64_of_N. rewrite N.mod_small by auto. apply N.ltb_ge in X. rewrite X.
      change (2 ^ 64) with 18446744073709551616 in SZ. lia. }
    destruct (Nat.eqb_spec (length (tr_data t)) 0) as [E0|E0].
    + destruct (N.leb_spec size memory) as [L|L]; cbn [obind]; [|reflexivity].
      unfold make_bytes at 1. rewrite repeat_length. rewrite I by lia.
      replace (Z.of_nat (N.to_nat size) =? Z.of_N size)%Z with true by (symmetry; apply Z.eqb_eq; lia).
      cbn [negb]. eexists. split; [reflexivity|]. split; [repeat split|]. split; [split; [exact R0|split; reflexivity]|].
      split; [cbn [tr_data]; symmetry; apply zeros_make|reflexivity].
    + cbn [obind]. destruct (N.eqb_spec (N.of_nat (length (tr_data t))) size) as [E|E].
      * rewrite I by lia. replace (Z.of_nat (length (tr_data t)) =? Z.of_N size)%Z with true by (symmetry; apply Z.eqb_eq; lia).
        cbn [negb]. eexists. split; [reflexivity|]. split; [repeat split|]. split; [split; [exact R0|split; reflexivity]|]. split; reflexivity.
      * replace (Z.of_nat (length (tr_data t)) =? i64_of_N size)%Z with false.
        2:{ symmetry. apply Z.eqb_neq. destruct (N.lt_ge_cases size (2 ^ 63)) as [C|C]; [rewrite I by auto; lia|specialize (J C); lia]. }
        cbn [negb]. eexists. split; [reflexivity|]. split; [repeat split|]. split; [split; [exact R0|split; reflexivity]|]. split; reflexivity.
  - intros N. destruct (sf_getstr sar (m_header m) "csumtype") as [ty| |] eqn:E; [|exfalso|reflexivity].
    + exfalso. apply (N ty). apply (getstr_reads _ _ _ _ LK). exact E.
    + rewrite (getstr_field _ _ _ LK) in E. eapply opt_name_not_Panic; eauto.
Qed.
Example c64_ex :
  let m := {| m_header := 0x22000001; m_session := 7; m_checksum := bytes_of "abcd";
              m_dir := {| de_header := 0; de_size := 3; de_mtime := zero_timestamp; de_ctime := zero_timestamp; de_path := "new" |} |} in
  let t := ex_transfer 7 ex_peer "a" in
  reads sar (m_header m) "csumtype" "crc32" /\ tr_data t = [] /\
  exists t1, tchange 1000 t m = Ret (t1, None) /\ tr_data t1 = zeros 3 /\
  exists t2 e, tchange 1000 t1 {| m_header := 0x22000000; m_session := 7; m_checksum := [];
              m_dir := {| de_header := 0; de_size := 4; de_mtime := zero_timestamp; de_ctime := zero_timestamp; de_path := "other" |} |} = Ret (t2, Some e) /\
    tr_checksum t2 = [] /\ tr_csumtype t2 = "none" /\ tr_data t2 = zeros 3.
Proof.
  intros m t. split; [|split; [reflexivity|]].
  - do 2 eexists. split; [vm_compute; reflexivity|]. split; [vm_compute; reflexivity|]. vm_compute. reflexivity.
  - eexists. split; [vm_compute; reflexivity|]. split; [reflexivity|]. do 2 eexists. split; [vm_compute; reflexivity|]. repeat split.
Qed.

(** ** Status reports *)

Lemma stpaylen_loop_items : forall l hs pl, clean_items l -> NoDup (keys l) ->
  (forall d, lookup "descriptor" l = Some d -> exists w, descriptor_bytes d = Some w) ->
  stpaylen_loop (map item_text l) hs pl =
    Ret (Some (match lookup "descriptor" l with Some d => match descriptor_bytes d with Some w => hole_bytes w | None => 0%Z end | None => hs end,
               if is_yes (lookup "reqtstamp" l) then (pl - 16)%Z else pl)).
Proof.
  induction l as [|[f v] l IH]; intros hs pl C ND D; [reflexivity|].
  assert (C' : clean_items l) by (intros p Ip; apply C; right; auto).
  destruct (C (f, v) (or_introl eq_refl)) as [Cf Cv]. cbn [fst snd] in Cf, Cv.
  inversion ND as [|? ? NI ND']; subst. cbn [fst] in NI.
  cbn [map stpaylen_loop]. rewrite split_item by auto. cbn [index nth_error obind].
  destruct (String.eqb_spec f "descriptor") as [->|N1].
  - assert (L : lookup "descriptor" l = None) by (apply lookup_None; auto).
    cbn [lookup] in *. change ("descriptor" =? "descriptor")%string with true in *. cbn match in *.
    change ("reqtstamp" =? "descriptor")%string with false. cbn match.
    destruct (D v eq_refl) as (w & Hw). rewrite Hw. unfold descriptor_bytes in Hw.
    assert (D' : forall d, lookup "descriptor" l = Some d -> exists w, descriptor_bytes d = Some w) by (intros d X; congruence).
    destruct (String.eqb v "d16"); [inversion Hw; subst; rewrite IH by auto; rewrite L; reflexivity|].
    destruct (String.eqb v "d32"); [inversion Hw; subst; rewrite IH by auto; rewrite L; reflexivity|].
    destruct (String.eqb v "d64"); [inversion Hw; subst; rewrite IH by auto; rewrite L; reflexivity|discriminate].
  - assert (D' : forall d, lookup "descriptor" l = Some d -> exists w, descriptor_bytes d = Some w).
    { intros d X. apply D. cbn [lookup]. destruct (String.eqb_spec "descriptor" f); [congruence|exact X]. }
    cbn [lookup]. destruct (String.eqb_spec "descriptor" f); [congruence|].
    destruct (String.eqb_spec f "reqtstamp") as [->|N2].
    + assert (L : lookup "reqtstamp" l = None) by (apply lookup_None; auto).
      cbn [index nth_error obind]. rewrite IH by auto. rewrite L. cbn [is_yes]. reflexivity.
    + destruct (String.eqb_spec "reqtstamp" f); [congruence|]. apply IH; auto.
Qed.

Lemma stpaylen_items : forall mtu items d w, items <> [] -> clean_items items -> NoDup (keys items) ->
  lookup "descriptor" items = Some d -> descriptor_bytes d = Some w ->
  stpaylen mtu (flag_list items) =
    Ret (Z.quot (mtu - 76 - (if is_yes (lookup "reqtstamp" items) then 16 else 0) - hole_bytes w) (hole_bytes w)).
Proof.
  intros mtu items d w NE C ND L W. unfold stpaylen. rewrite split_flags by auto.
  rewrite stpaylen_loop_items by (auto; intros d' X; rewrite L in X; inversion X; subst; eauto).
  cbn [obind]. rewrite L, W. unfold int_div.
  assert (W0 : (hole_bytes w > 0)%Z).
  { unfold descriptor_bytes in W. unfold hole_bytes. destruct (String.eqb d "d16"); [inversion W; lia|].
    destruct (String.eqb d "d32"); [inversion W; lia|]. destruct (String.eqb d "d64"); [inversion W; lia|discriminate]. }
  destruct (Z.eqb_spec (hole_bytes w) 0); [lia|]. f_equal. f_equal. destruct (is_yes _); lia.
Qed.

Lemma most_holes_quot : forall mtu stamp w n, (0 < w)%nat -> most_holes mtu stamp w n ->
  Z.quot (mtu - 76 - (if stamp then 16 else 0) - hole_bytes w) (hole_bytes w) = Z.of_nat n.
Proof.
  intros mtu stamp w n W (A & B). unfold report_bytes, udp_room in *.
  assert (H : (0 < hole_bytes w)%Z) by (unfold hole_bytes; lia). set (b := hole_bytes w) in *. clearbody b.
  set (s := if stamp then 16%Z else 0%Z) in *. clearbody s.
  symmetry. apply Z.quot_unique with (mtu - 76 - s - b - b * Z.of_nat n)%Z; nia.
Qed.

Lemma set_exactly_ext : forall T h h' l l', (forall f, last_setting l f = last_setting l' f) -> set_exactly T h h' l -> set_exactly T h h' l'.
Proof.
  intros T h h' l l' E (A & B & C). split; [auto|]. split.
  - intros f v H. apply B. rewrite E. exact H.
  - intros i H. apply C. intros f v fl I L.
    assert (X : exists v', In (f, v') l').
    { assert (Y : last_setting l f <> None).
      { unfold last_setting. intros Z. apply lookup_rev_None in Z. apply Z. apply in_map_iff. exists (f, v); auto. }
      rewrite E in Y. unfold last_setting in Y. destruct (lookup f (rev l')) as [v'|] eqn:F; [|congruence].
      exists v'. apply in_rev. apply lookup_In. exact F. }
    destruct X as (v' & X). apply (H f v' fl); auto.
Qed.

Lemma replace_items_in : forall l f v p, In p (replace_items l f v) -> p = (f, v) \/ (In p l /\ fst p <> f).
Proof.
  intros l f v p. unfold replace_items. destruct (existsb _ l) eqn:E.
  - unfold replaced. rewrite in_map_iff. intros (q & <- & I). destruct (String.eqb_spec (fst q) f); auto.
  - rewrite in_app_iff. intros [I|[<-|[]]]; auto. right. split; auto. intros X.
    assert (Y : existsb (fun p => String.eqb (fst p) f) l = true) by (apply existsb_exists; exists p; split; auto; apply String.eqb_eq; auto).
    congruence.
Qed.
Lemma replace_items_keys : forall l f v, NoDup (keys l) -> NoDup (keys (replace_items l f v)).
Proof.
  intros l f v ND. unfold replace_items. destruct (existsb _ l) eqn:E.
  - replace (keys (replaced f v l)) with (keys l); auto. unfold keys, replaced. rewrite map_map. apply map_ext_in.
    intros [g x] _. cbn [fst]. destruct (String.eqb_spec g f); subst; reflexivity.
  - unfold keys. rewrite map_app. cbn [map fst]. apply NoDup_rev in ND.
    rewrite <- (rev_involutive (map fst l ++ [f])). apply NoDup_rev. rewrite rev_app_distr. cbn [rev app]. constructor; auto.
    intros I. apply in_rev in I. apply in_map_iff in I. destruct I as (p & X & I).
    assert (Y : existsb (fun p => String.eqb (fst p) f) l = true) by (apply existsb_exists; exists p; split; auto; apply String.eqb_eq; auto).
    congruence.
Qed.
Lemma lookup_rev_nodup : forall {V} f (l : list (string * V)), NoDup (keys l) -> lookup f (rev l) = lookup f l.
Proof.
  intros V f l ND. apply lookup_perm. split; [auto|apply Permutation_rev].
Qed.
Lemma last_setting_replace : forall pre l f v g, NoDup (keys l) ->
  last_setting (pre ++ replace_items l f v) g = last_setting (pre ++ l ++ [(f, v)]) g.
Proof.
  intros pre l f v g ND. unfold last_setting. rewrite !rev_app_distr. cbn [rev app]. rewrite !lookup_app.
  rewrite lookup_rev_nodup by (apply replace_items_keys; auto). cbn [lookup].
  destruct (String.eqb_spec g f) as [->|N].
  - rewrite replace_items_same. reflexivity.
  - rewrite replace_items_other by auto. rewrite lookup_app, (lookup_rev_nodup g l) by auto. reflexivity.
Qed.

Lemma last_setting_none : forall l f, last_setting l f = None -> forall v, ~ In (f, v) l.
Proof. intros l f H v I. apply lookup_rev_None in H. apply H. apply in_map_iff. exists (f, v); auto. Qed.


Lemma report_field : forall h items all f msb len, set_exactly sar 0 h (report_settings items all) ->
  (forall p, In p items -> In (fst p) flags_allowed) ->
  In (f, msb, len) [("reqtstamp", 12, 1); ("errcode", 24, 8); ("metadatarecvd", 13, 1); ("reqholes", 15, 1)] ->
  lookup f items = None -> NoDup (keys items) -> bit_field 32 msb len h = 0.
Proof.
  intros h items all f msb len SE AL IN LN ND.
  rewrite (set_exactly_field 0 h _ msb len SE).
  - unfold bit_field. rewrite N.div_0_l by (apply N.pow_nonzero; discriminate). apply N.mod_0_l. apply N.pow_nonzero. discriminate.
  - intros g v fl I L.
    assert (G : In g ("version" :: "frametype" :: flags_allowed)%list /\ g <> f).
    { destruct I as [X|[X|I]]; [inversion X; subst|inversion X; subst|].
      - split; [left; reflexivity|]. intros <-. destruct IN as [Y|[Y|[Y|[Y|[]]]]]; inversion Y.
      - split; [right; left; reflexivity|]. intros <-. destruct IN as [Y|[Y|[Y|[Y|[]]]]]; inversion Y.
      - apply in_app_iff in I. destruct I as [I|[X|[]]].
        + split; [right; right; apply (AL (g, v)); auto|]. intros ->. apply lookup_None in LN. apply LN.
          apply in_map_iff. exists (f, v); auto.
        + inversion X; subst. split; [right; right; do 3 right; left; reflexivity|].
          intros <-. destruct IN as [Y|[Y|[Y|[Y|[]]]]]; inversion Y. }
    destruct G as (G & NF).
    cbn [In flags_allowed] in G, IN.
    destruct IN as [X|[X|[X|[X|[]]]]]; inversion X; subst; clear X;
      repeat (destruct G as [<-|G]; [vm_compute in L; inversion L; subst fl; cbn [f_msb f_len]; first [congruence | left; discriminate | right; discriminate | (unfold disjoint_fields; lia)]|]); destruct G.
  - destruct IN as [X|[X|[X|[X|[]]]]]; inversion X; subst; lia.
  - intros g v fl I L. destruct (wf_lookup _ _ _ sar_wf L) as (W & _). exact W.
Qed.

Lemma report_lookup : forall items all f v, NoDup (keys items) -> In f flags_allowed -> f <> "allholes" ->
  lookup f items = Some v -> last_setting (report_settings items all) f = Some v.
Proof.
  intros items all f v ND AL NA L. unfold last_setting, report_settings.
  change (("version", "v1") :: ("frametype", "status") :: items ++ [("allholes", all)])%list with ([("version", "v1"); ("frametype", "status")] ++ items ++ [("allholes", all)])%list.
  rewrite !rev_app_distr, !lookup_app. cbn [rev app lookup].
  destruct (String.eqb_spec f "allholes"); [congruence|]. rewrite lookup_rev_nodup by auto. rewrite L. reflexivity.
Qed.

Lemma stamped_prints : forall now t, good_now now -> stamped now zero_timestamp ["posix32"] t -> ts_print_ok t = Ret tt.
Proof.
  intros now t [G1 G2] (t1 & E & ->). assert (RT : real_time now) by (split; lia).
  rewrite (proj1 (c12_posix32 zero_timestamp now RT)) in E by lia. inversion E; subst. reflexivity.
Qed.

Section Report.
  Variables (now : gotime) (items : list (string * string)) (all d : string) (w : nat).
  Hypothesis G : good_now now.
  Hypothesis ND : NoDup (keys items).
  Hypothesis V : forall p, In p items -> valid_setting sar p /\ In (fst p) flags_allowed.
  Hypothesis L : lookup "descriptor" items = Some d.
  Hypothesis W : descriptor_bytes d = Some w.
  Hypothesis A : all = "yes" \/ all = "no".

  Lemma items_ne : items <> [].
  Proof. intros ->. discriminate. Qed.
  Lemma items_clean : clean_items items.
  Proof. eapply valid_clean_items; [exact sar_clean|]. intros p Ip. apply V; auto. Qed.
  Lemma all_valid : valid_setting sar ("allholes", all).
  Proof. apply known_valid. destruct A; subst; vm_compute; reflexivity. Qed.

  Lemma report_flags : sf_replaceflag sar (flag_list items) "allholes" all = Ret (flag_list (replace_items items "allholes" all)).
  Proof.
    change (sf_replaceflag sar (flag_list items) "allholes" all) with (replace_model (sf_valid sar) (flag_list items) "allholes" all).
    rewrite replace_spec.
    - replace (sf_valid sar "allholes" all) with true; auto. symmetry. apply sf_valid_iff. apply all_valid.
    - apply items_ne.
    - apply items_clean.
    - intros [f v] Ip. apply sf_valid_iff. apply V; auto.
  Qed.

  Lemma report_status : forall info, exists st h, status_new now zero_status (flag_list (replace_items items "allholes" all)) info = Ret (st, None) /\
    s_header st = h /\ set_exactly sar 0 h (report_settings items all) /\
    s_session st = si_session info mod 2 ^ 32 /\ s_progress st = si_progress info /\ s_inrespto st = si_inrespto info /\
    s_holes st = si_holes info /\
    descriptor_width (hd_descriptor h) = Some w /\
    hd_reqtstamp h = (if is_yes (lookup "reqtstamp" items) then 1 else 0) /\
    status_shortprint_ok st = Ret tt /\ status_print_ok st = Ret tt.
  Proof.
    intros info.
    assert (RV : forall p, In p (replace_items items "allholes" all) -> valid_setting sar p /\ In (fst p) flags_allowed).
    { intros p Ip. apply replace_items_in in Ip. destruct Ip as [->|[Ip _]]; [|auto]. split; [apply all_valid|]. do 3 right; left; reflexivity. }
    assert (NT : forall f, In f flags_allowed -> is_in f ["localinterp"; "posix32"; "posix64"; "posix32_32"; "posix64_32"] = false).
    { intros f If. cbn [flags_allowed In] in If. repeat (destruct If as [<-|If]; [reflexivity|]). destruct If. }
    destruct (c69_result now zero_status (replace_items items "allholes" all) info) as (st & E & SE & H1 & H2 & H3 & H4 & H5).
    - exact G.
    - apply replace_items_nonempty.
    - intros p Ip. apply (proj1 sar_clean). apply RV; auto.
    - intros [f v] Ip. apply RV in Ip. cbn [fst] in Ip. destruct Ip as (P1 & P2). unfold status_item_verdict.
      replace (is_in f ["descriptor"; "stream"; "metadatarecvd"; "allholes"; "reqholes"; "errcode"; "reqtstamp"]) with true by (symmetry; apply is_in_true; auto).
      unfold setting_verdict. replace (known_option sar f v) with true; auto. symmetry. apply known_valid; auto.
    - reflexivity.
    - exists st, (s_header st). split; [exact E|]. split; [reflexivity|].
      assert (FM : flat_map status_settings (replace_items items "allholes" all) = replace_items items "allholes" all).
      { clear - RV NT. set (l := replace_items items "allholes" all) in *. clearbody l. induction l as [|[f v] l IH]; [reflexivity|].
        cbn [flat_map]. rewrite IH by (intros p Ip; apply RV; right; auto). unfold status_settings.
        rewrite NT by (apply (RV (f, v)); left; auto). reflexivity. }
      rewrite FM in SE. change (s_header zero_status) with 0 in SE.
      assert (SE' : set_exactly sar 0 (s_header st) (report_settings items all)).
      { eapply set_exactly_ext; [|exact SE]. intros f.
        apply (last_setting_replace [("version", "v1"); ("frametype", "status")] items "allholes" all f ND). }
      clear SE. set (h := s_header st) in *.
      assert (RD : forall f v, In f flags_allowed -> f <> "allholes" -> lookup f items = Some v -> reads sar h f v).
      { intros f v If Nf Lf. apply SE'. apply report_lookup; auto. }
      assert (LA : forall p, In p items -> In (fst p) flags_allowed) by (intros p Ip; apply V; auto).
      split; [exact SE'|]. split; [exact H1|]. split; [exact H2|]. split; [exact H3|]. split; [exact H4|].
      assert (DW : descriptor_width (hd_descriptor h) = Some w).
      { assert (RX : reads sar h "descriptor" d) by (apply RD; auto; [left; reflexivity|discriminate]).
        destruct RX as (fl & n & X1 & X2 & X3). vm_compute in X1. inversion X1; subst fl. cbn [f_msb f_len f_opts] in X2, X3.
        unfold hd_descriptor. rewrite X3. clear - X2 W. unfold descriptor_bytes in W.
        cbn [lookup] in X2.
        destruct (String.eqb_spec d "d16"); [subst; vm_compute in X2; inversion X2; subst; exact W|].
        destruct (String.eqb_spec d "d32"); [subst; vm_compute in X2; inversion X2; subst; exact W|].
        destruct (String.eqb_spec d "d64"); [subst; vm_compute in X2; inversion X2; subst; exact W|discriminate]. }
      assert (RT : hd_reqtstamp h = (if is_yes (lookup "reqtstamp" items) then 1 else 0)).
      { destruct (lookup "reqtstamp" items) as [v|] eqn:LR; cbn [is_yes].
        - assert (RX : reads sar h "reqtstamp" v) by (apply RD; auto; [do 6 right; left; reflexivity|discriminate]).
          destruct RX as (fl & n & X1 & X2 & X3). vm_compute in X1. inversion X1; subst fl. cbn [f_msb f_len f_opts] in X2, X3.
          unfold hd_reqtstamp. rewrite X3. cbn [lookup] in X2.
          destruct (String.eqb_spec v "yes"); [subst v; vm_compute in X2; congruence|].
          destruct (String.eqb_spec v "no"); [subst v; vm_compute in X2; congruence|discriminate].
        - apply (report_field h items all "reqtstamp" 12 1); auto. left; reflexivity. }
      split; [exact DW|]. split; [exact RT|].
      assert (GE : exists v, sf_getstr sar h "errcode" = Ret v).
      { destruct (lookup "errcode" items) as [v|] eqn:LR.
        - exists v. eapply getstr_reads; [vm_compute; reflexivity|]. apply RD; auto; [do 5 right; left; reflexivity|discriminate].
        - exists "success". rewrite (getstr_field "errcode" (flag_of sar "errcode")) by (vm_compute; reflexivity).
          replace (bit_field 32 (f_msb (flag_of sar "errcode")) (f_len (flag_of sar "errcode")) h) with 0; [vm_compute; reflexivity|].
          symmetry. apply (report_field h items all "errcode" 24 8); auto. right; left; reflexivity. }
      assert (GR : sf_getstr sar h "reqtstamp" = Ret (if is_yes (lookup "reqtstamp" items) then "yes" else "no")).
      { rewrite getstr_reqtstamp, RT. destruct (is_yes _); reflexivity. }
      assert (TS : (if String.eqb (if is_yes (lookup "reqtstamp" items) then "yes" else "no") "yes" then ts_print_ok (s_tstamp st) else Ret tt) = Ret tt).
      { destruct (is_yes (lookup "reqtstamp" items)) eqn:Y; [|reflexivity]. cbn.
        apply (stamped_prints now); auto.
        replace (flat_map status_stamp (replace_items items "allholes" all)) with ["posix32"] in H5; [exact H5|].
        assert (LR : lookup "reqtstamp" (replace_items items "allholes" all) = Some "yes").
        { rewrite replace_items_other by discriminate. destruct (lookup "reqtstamp" items) as [v|]; [|discriminate].
          cbn [is_yes] in Y. apply String.eqb_eq in Y. congruence. }
        assert (ND2 : NoDup (keys (replace_items items "allholes" all))) by (apply replace_items_keys; auto).
        clear - RV NT LR ND2. set (l := replace_items items "allholes" all) in *. clearbody l.
        assert (Z : forall m, (forall p, In p m -> valid_setting sar p /\ In (fst p) flags_allowed) -> ~ In "reqtstamp" (keys m) -> flat_map status_stamp m = []).
        { induction m as [|[f v] m IH]; intros R N; [reflexivity|]. cbn [flat_map].
          rewrite IH; [|intros; apply R; right; auto|intros X; apply N; right; auto].
          unfold status_stamp. destruct (String.eqb_spec f "reqtstamp") as [->|]; [exfalso; apply N; left; reflexivity|].
          rewrite NT by (apply (R (f, v)); left; auto). reflexivity. }
        induction l as [|[f v] l IH]; [discriminate|]. cbn [lookup] in LR. inversion ND2; subst. cbn [flat_map].
        destruct (String.eqb_spec "reqtstamp" f) as [<-|].
        - inversion LR; subst. rewrite Z; [reflexivity| |auto]. intros p Ip. apply RV; right; auto.
        - rewrite <- IH by (auto; intros p Ip; apply RV; right; auto).
          unfold status_stamp. destruct (String.eqb_spec f "reqtstamp"); [congruence|].
          rewrite NT by (apply (RV (f, v)); left; auto). reflexivity. }
      destruct GE as (ev & GE).
      split.
      + unfold status_shortprint_ok. fold h. rewrite GR. cbn [obind]. rewrite TS. cbn [obind]. rewrite GE. reflexivity.
      + unfold status_print_ok. fold h.
        assert (GV : sf_getstr sar h "version" = Ret "v1") by (eapply getstr_reads; [vm_compute; reflexivity|]; apply SE';
          unfold last_setting, report_settings; cbn [rev]; rewrite rev_app_distr, <- !app_assoc, !lookup_app; cbn [rev app lookup];
          change ("version" =? "allholes")%string with false; cbn match;
          replace (lookup "version" (rev items)) with (@None string); [reflexivity|]; symmetry; rewrite lookup_rev_nodup by auto; apply lookup_None;
          intros X; apply in_map_iff in X; destruct X as (q & X1 & X2); apply LA in X2; rewrite X1 in X2; cbn in X2; repeat (destruct X2 as [X2|X2]; [discriminate|]); destruct X2).
        assert (GF : sf_getstr sar h "frametype" = Ret "status") by (eapply getstr_reads; [vm_compute; reflexivity|]; apply SE';
          unfold last_setting, report_settings; cbn [rev]; rewrite rev_app_distr, <- !app_assoc, !lookup_app; cbn [rev app lookup];
          change ("frametype" =? "allholes")%string with false; cbn match;
          replace (lookup "frametype" (rev items)) with (@None string); [reflexivity|]; symmetry; rewrite lookup_rev_nodup by auto; apply lookup_None;
          intros X; apply in_map_iff in X; destruct X as (q & X1 & X2); apply LA in X2; rewrite X1 in X2; cbn in X2; repeat (destruct X2 as [X2|X2]; [discriminate|]); destruct X2).
        assert (GB : forall f msb, In (f, msb) [("metadatarecvd", 13); ("allholes", 14); ("reqholes", 15)] -> exists v, sf_getstr sar h f = Ret v).
        { intros f msb If. cbn [In] in If. destruct If as [X|[X|[X|[]]]]; inversion X; subst;
          (match goal with |- exists v, sf_getstr sar h ?f = _ => rewrite (getstr_field f (flag_of sar f)) by (vm_compute; reflexivity) end;
           match goal with |- exists v, opt_name _ (bit_field 32 ?m ?n h) = _ => assert (B : bit_field 32 m n h < 2 ^ n) by (apply bit_field_bound); set (x := bit_field 32 m n h) in *; clearbody x; assert (B' : x < 2) by (replace 2 with (2 ^ n) by (vm_compute; reflexivity); exact B); clear B; assert (x = 0 \/ x = 1) as [->| ->] by lia end;
           eexists; vm_compute; reflexivity). }
        destruct (GB "metadatarecvd" 13) as (v1 & G1); [left; reflexivity|].
        destruct (GB "allholes" 14) as (v2 & G2); [right; left; reflexivity|].
        destruct (GB "reqholes" 15) as (v3 & G3); [right; right; left; reflexivity|].
        assert (GD : exists v, sf_getstr sar h "descriptor" = Ret v) by (rewrite getstr_descriptor; eauto). destruct GD as (dv & GD).
        replace (sf_values sar "status") with ["version"; "frametype"; "descriptor"; "reqtstamp"; "metadatarecvd"; "allholes"; "reqholes"; "errcode"] by (vm_compute; reflexivity).
        cbn [ofold]. rewrite GV, GF, GD, GR, G1, G2, G3, GE. cbn [obind]. exact TS.
  Qed.
End Report.

Lemma status_send_report : forall st c h w (stamp : bool), s_header st = h -> descriptor_width (hd_descriptor h) = Some w ->
  hd_reqtstamp h = (if stamp then 1 else 0) -> uc_remote c = None ->
  status_send st c true = Ret (Some (status_wire h (s_session st) w (s_progress st) (s_inrespto st) (s_holes st) ++ (if stamp then zeros 16 else []))%list).
Proof.
  intros st c h w stamp <- D R U. unfold status_send, write_to. rewrite U. destruct stamp.
  - pose proof (c29_encode st R) as E. rewrite D in E. rewrite E. reflexivity.
  - pose proof (c27_encode st R) as E. rewrite D in E. rewrite E, app_nil_r. reflexivity.
Qed.
Lemma write_status_loop_same : forall now oks t c flags st buf,
  (forall i, oks i = true) ->
  status_new now zero_status flags {| si_session := tr_session t; si_progress := tr_progress t; si_inrespto := tr_inrespto t; si_holes := hl_getholes (tr_curfills t) |} = Ret (st, None) ->
  status_send st c true = Ret (Some buf) -> status_shortprint_ok st = Ret tt -> status_print_ok st = Ret tt ->
  forall n, write_status_loop n now oks t c flags = Ret ("success", repeat buf n).
Proof.
  intros now oks t c flags st buf OK N S P1 P2. induction n as [|n IH]; [reflexivity|].
  cbn [write_status_loop]. rewrite N. cbn [obind]. rewrite OK, S. cbn [obind]. rewrite P1, P2. cbn [obind]. rewrite IH. reflexivity.
Qed.

(** C65: on a connection that can send, a report takes one frame if the holes fit (or
    the code is not success), otherwise holes/max + 1; every frame is the same and lists all holes. *)
Lemma c65_frames : forall now mtu oks t c items d w n,
  good_now now -> NoDup (map fst items) ->
  (forall p, In p items -> valid_setting sar p /\ In (fst p) flags_allowed) ->
  lookup "descriptor" items = Some d -> descriptor_bytes d = Some w ->
  tr_conn t = Some c -> uc_remote c = None -> (forall i, oks i = true) -> tr_session t < 2 ^ 32 ->
  let stamp := is_yes (lookup "reqtstamp" items) in
  let hs := hl_getholes (tr_curfills t) in
  let many := (match lookup "errcode" items with Some e => String.eqb e "success" | None => false end) && Nat.ltb n (length hs) in
  most_holes mtu stamp w n -> (0 < n)%nat ->
  exists h, set_exactly sar 0 h (report_settings items (if many then "no" else "yes")) /\
    write_status now mtu oks t (flag_list items) =
      Ret ("success", repeat (status_wire h (tr_session t) w (tr_progress t) (tr_inrespto t) hs ++ (if stamp then zeros 16 else []))%list
                             (if many then length hs / n + 1 else 1)%nat).
Proof.
  intros now mtu oks t c items d w n G ND V L W TC U OK TS stamp hs many M N0.
  assert (A : (if many then "no" else "yes") = "yes" \/ (if many then "no" else "yes") = "no") by (destruct many; auto).
  set (all := if many then "no" else "yes") in *.
  assert (NE : items <> []) by (intros ->; discriminate).
  assert (CL : clean_items items) by (eapply valid_clean_items; [exact sar_clean|]; intros p Ip; apply V; auto).
  destruct (report_status now items all d w G ND V L W A
    {| si_session := tr_session t; si_progress := tr_progress t; si_inrespto := tr_inrespto t; si_holes := hl_getholes (tr_curfills t) |})
    as (st & h & E & Hh & SE & H1 & H2 & H3 & H4 & DW & RT & P1 & P2).
  cbn [si_session si_progress si_inrespto si_holes] in H1, H2, H3, H4. rewrite N.mod_small in H1 by auto.
  exists h. split; [exact SE|]. fold stamp in RT.
  pose proof (status_send_report st c h w stamp Hh DW RT U) as S. rewrite H1, H2, H3, H4 in S. fold hs in S.
  unfold write_status. rewrite TC. rewrite (stpaylen_items mtu items d w) by auto. cbn [obind]. fold stamp.
  assert (W0 : (0 < w)%nat).
  { unfold descriptor_bytes in W. destruct (String.eqb d "d16"); [inversion W; lia|].
    destruct (String.eqb d "d32"); [inversion W; lia|]. destruct (String.eqb d "d64"); [inversion W; lia|discriminate]. }
  rewrite (most_holes_quot mtu stamp w n W0 M).
  rewrite flagvalue_spec by auto. cbn [obind]. fold hs.
  assert (F : forall k, write_status_loop k now oks t c (flag_list (replace_items items "allholes" all)) = Ret ("success",
     repeat (status_wire h (tr_session t) w (tr_progress t) (tr_inrespto t) hs ++ (if stamp then zeros 16 else []))%list k)).
  { intros k. eapply write_status_loop_same; eauto. }
  assert (RF : sf_replaceflag sar (flag_list items) "allholes" all = Ret (flag_list (replace_items items "allholes" all))) by (eapply report_flags; eauto).
  assert (Q : int_div (Z.of_nat (length hs)) (Z.of_nat n) = Ret (Z.of_nat (length hs / n))).
  { unfold int_div. destruct (Z.eqb_spec (Z.of_nat n) 0); [lia|]. f_equal. rewrite Z.quot_div_nonneg by lia. rewrite Nat2Z.inj_div. reflexivity. }
  subst all. unfold many in *. destruct (lookup "errcode" items) as [e|]; [destruct (String.eqb e "success") eqn:ES|].
  - cbn [andb] in *. 
    destruct (Nat.ltb_spec n (length hs)) as [LT|LT].
    + destruct (Z.leb_spec (Z.of_nat (length hs)) (Z.of_nat n)); [lia|].
      rewrite Q. cbn [obind]. rewrite RF. cbn [obind]. rewrite F. repeat f_equal. lia.
    + destruct (Z.leb_spec (Z.of_nat (length hs)) (Z.of_nat n)); [|lia].
      rewrite RF. cbn [obind]. apply F.
  - cbn [andb] in *.  replace (0 <=? Z.of_nat n)%Z with true by (symmetry; apply Z.leb_le; lia).
    rewrite RF. cbn [obind]. apply F.
  - cbn [andb] in *. change ("" =? "success")%string with false. cbn match. replace (0 <=? Z.of_nat n)%Z with true by (symmetry; apply Z.leb_le; lia).
    rewrite RF. cbn [obind]. apply F.
Qed.
Lemma status_wire_length : forall h s w p i hs, length (status_wire h s w p i hs) = (8 + 2 * w + length hs * (2 * w))%nat.
Proof.
  intros. unfold status_wire, status_body. rewrite !app_length, !wire_length.
  assert (F : length (flat_map (fun h => (wireZ w (h_start h) ++ wireZ w (h_end h))%list) hs) = (length hs * (2 * w))%nat).
  { induction hs as [|x l IH]; [reflexivity|]. cbn [flat_map length]. rewrite app_length, IH, app_length. unfold wireZ. rewrite !wire_length. lia. }
  rewrite F. lia.
Qed.
(** C65: so a frame of such a report fits exactly when all the holes fit into one frame;
    when several frames are sent none of them fits. *)
Lemma c65_size : forall now mtu oks t c items d w n bufs b,
  good_now now -> NoDup (map fst items) ->
  (forall p, In p items -> valid_setting sar p /\ In (fst p) flags_allowed) ->
  lookup "descriptor" items = Some d -> descriptor_bytes d = Some w ->
  tr_conn t = Some c -> uc_remote c = None -> (forall i, oks i = true) -> tr_session t < 2 ^ 32 ->
  most_holes mtu (is_yes (lookup "reqtstamp" items)) w n -> (0 < n)%nat ->
  write_status now mtu oks t (flag_list items) = Ret ("success", bufs) -> In b bufs ->
  ((Z.of_nat (length b) <= udp_room mtu)%Z <-> (length (hl_getholes (tr_curfills t)) <= n)%nat) /\
  ((1 < length bufs)%nat -> (udp_room mtu < Z.of_nat (length b))%Z).
Proof.
  intros now mtu oks t c items d w n bufs b G ND V L W TC U OK TS M N0 E I.
  destruct (c65_frames now mtu oks t c items d w n G ND V L W TC U OK TS M N0) as (h & SE & E').
  set (stamp := is_yes (lookup "reqtstamp" items)) in *. set (hs := hl_getholes (tr_curfills t)) in *.
  rewrite E in E'. apply (f_equal (fun o => match o with Ret (_, l) => l | _ => [] end)) in E'. cbv beta match in E'. match type of E' with _ = repeat _ ?kk => set (k := kk) in E' end.
  assert (K : (1 < k)%nat -> (n < length hs)%nat).
  { unfold k. destruct (lookup "errcode" items) as [e|]; [destruct (String.eqb e "success")|]; cbn [andb]; try lia.
    destruct (Nat.ltb_spec n (length hs)); lia. }
  clearbody k. rewrite E' in I. pose proof (repeat_spec _ _ _ I) as ->.
  assert (LB : Z.of_nat (length (status_wire h (tr_session t) w (tr_progress t) (tr_inrespto t) hs ++ (if stamp then zeros 16 else []))%list) = report_bytes stamp w (length hs)).
  { rewrite app_length, status_wire_length. unfold report_bytes, hole_bytes. destruct stamp; [unfold zeros; rewrite repeat_length|cbn [length]]; lia. }
  rewrite LB. destruct M as (M1 & M2).
  assert (W0 : (0 < w)%nat).
  { unfold descriptor_bytes in W. destruct (String.eqb d "d16"); [inversion W; lia|].
    destruct (String.eqb d "d32"); [inversion W; lia|]. destruct (String.eqb d "d64"); [inversion W; lia|discriminate]. }
  assert (X : (report_bytes stamp w (length hs) <= udp_room mtu)%Z <-> (length hs <= n)%nat).
  { unfold report_bytes, hole_bytes in *. split; intros Y; nia. }
  split; [exact X|]. rewrite E', repeat_length. intros K1. apply K in K1.
  destruct (Z.lt_ge_cases (udp_room mtu) (report_bytes stamp w (length hs))); auto. apply X in H. lia.
Qed.
(** an interface with an MTU of 108 bytes has room for three 16-bit holes *)
Definition ex_holes : holes :=
  [ {| h_start := 0; h_end := 1 |}; {| h_start := 2; h_end := 3 |}; {| h_start := 4; h_end := 5 |}; {| h_start := 6; h_end := 7 |};
    {| h_start := 8; h_end := 9 |}; {| h_start := 10; h_end := 11 |}; {| h_start := 12; h_end := 13 |}; {| h_start := 14; h_end := 15 |} ].
Definition ex_reporting : transfer :=
  {| tr_direction := responder; tr_session := 7; tr_conn := Some {| uc_remote := None |}; tr_peer := ex_peer;
     tr_ttype := "put"; tr_tstamptype := ""; tr_filename := "a"; tr_fp := None; tr_filemeta := None; tr_csumtype := "";
     tr_havemeta := true; tr_checksum := []; tr_dir := None; tr_data := []; tr_progress := 15; tr_inrespto := 0;
     tr_curfills := ex_holes; tr_cliflags := None |}.
Example c65_ex :
  most_holes 108 true 2 3 /\ length (hl_getholes ex_holes) = 7%nat /\
  exists b, write_status ex_now 108 (fun _ => true) ex_reporting "descriptor=d16,errcode=success,reqtstamp=yes" = Ret ("success", [b; b; b]) /\
    length b = 56%nat.
Proof.
  split; [vm_compute; split; [intros X|]; congruence|]. split; [reflexivity|].
  eexists. split; [vm_compute; reflexivity|]. reflexivity.
Qed.

(** ** Connections *)
Lemma write_status_loop_connected : forall now oks t c flags, (exists a, uc_remote c = Some a) ->
  forall n r bufs, write_status_loop n now oks t c flags = Ret (r, bufs) -> bufs = [] /\ (r = "badstatus" \/ n = 0%nat).
Proof.
  intros now oks t c flags (a & U) n r bufs. destruct n as [|n]; cbn [write_status_loop]; [intros E; inversion E; auto|].
  destruct (status_new _ _ _ _) as [[st [e|]]| |]; cbn [obind]; try discriminate; [intros E; inversion E; auto|].
  unfold status_send, write_to. rewrite U. destruct (status_encode st) as [[b|e]| |]; cbn [obind]; try discriminate; intros E; inversion E; auto.
Qed.
(** C79: on a dialled connection no report is ever sent. *)
Lemma c79_dialled : forall now mtu oks t c a flags r bufs, tr_conn t = Some c -> uc_remote c = Some a ->
  write_status now mtu oks t flags = Ret (r, bufs) ->
  bufs = [] /\ (r = "badstatus" \/ exists k, stpaylen mtu flags = Ret k /\ (k < 0)%Z).
Proof.
  intros now mtu oks t c a flags r bufs TC U. unfold write_status. rewrite TC.
  destruct (stpaylen mtu flags) as [k| |]; cbn [obind]; try discriminate.
  destruct (sf_flagvalue flags "errcode") as [e| |]; cbn [obind]; try discriminate.
  set (lh := if String.eqb e "success" then _ else _). assert (L0 : (0 <= lh)%Z) by (unfold lh; destruct (String.eqb e "success"); lia).
  destruct (Z.leb_spec lh k).
  - destruct (sf_replaceflag _ _ _ _) as [f| |]; cbn [obind]; try discriminate. intros E.
    apply write_status_loop_connected in E; [|eauto]. destruct E as (E1 & [E2|E2]); [auto|discriminate].
  - unfold int_div. destruct (Z.eqb_spec k 0); cbn [obind]; try discriminate.
    destruct (sf_replaceflag _ _ _ _) as [f| |]; cbn [obind]; try discriminate. intros E.
    apply write_status_loop_connected in E; [|eauto]. destruct E as (E1 & [E2|E2]); [auto|]. split; auto. right. exists k. split; auto.
    destruct (Z.lt_ge_cases k 0); auto. exfalso.
    assert (0 <= Z.quot (Z.of_nat (length (hl_getholes (tr_curfills t)))) k)%Z by (apply Z.quot_pos; lia). lia.
Qed.

(** ** Starting a transfer *)
Lemma initiator_loop_find : forall fs cwd sardir all ttype peer fname l,
  initiator_loop fs cwd sardir all l ttype peer fname =
    match find (in_the_way (overwrites fs cwd sardir ttype fname) fname peer) l with
    | None => None
    | Some i => Some (if without_connection i then fst (tremove all i) else all)
    end.
Proof.
  intros fs cwd sardir all ttype peer fname. induction l as [|i l IH]; [reflexivity|].
  cbn [initiator_loop find]. unfold in_the_way at 1. unfold without_connection at 1 2.
  destruct (tr_conn i) eqn:C.
  - cbn [orb]. unfold overwrites at 1. rewrite is_in_one_of. fold (overwrites fs cwd sardir ttype fname).
    destruct (overwrites fs cwd sardir ttype fname) eqn:O; cbn [orb].
    + unfold without_connection. rewrite C. reflexivity.
    + fold (same_job fname peer i). destruct (same_job fname peer i); [unfold without_connection; rewrite C; reflexivity|].
      rewrite IH. reflexivity.
  - cbn [orb]. unfold without_connection. rewrite C. reflexivity.
Qed.

(** C80: when a transfer can be started: the first transfer of the table that is in the
    way makes the call fail; if that one has no connection the last one of the table goes. *)
Lemma c80_refused : forall E sardir c s ttype peer fname i,
  find (in_the_way (overwrites (is_fs s) (is_cwd s) sardir ttype fname) fname peer) (is_table s) = Some i ->
  new_initiator E sardir c s ttype peer fname =
    Ret ({| is_table := if without_connection i then removelast (is_table s) else is_table s;
            is_session := is_session s; is_fs := is_fs s; is_cwd := is_cwd s |}, None).
Proof.
  intros E sardir c s ttype peer fname i F. unfold new_initiator, initiator_check. rewrite initiator_loop_find, F.
  assert (R : tremove (is_table s) i = (removelast (is_table s), None)).
  { apply c62_removes_last. exists i. split; [eapply find_some; eauto|repeat split]. }
  rewrite R. reflexivity.
Qed.
(** C80: otherwise it is started (unless looking at the file or copying the settings
    panics): the table grows by it, at the end. *)
Lemma c80_started : forall E sardir c s ttype peer fname, NoDup (keys (cl_global c)) ->
  find (in_the_way (overwrites (is_fs s) (is_cwd s) sardir ttype fname) fname peer) (is_table s) = None ->
  let o := file_open (ie_now E) (ie_chdir E) (is_fs s) (is_cwd s) sardir fname ttype in
  match file_meta (or_fs o) (or_cwd o) sardir fname with
  | Ret fm =>
      if Nat.eqb (length (cl_global c)) 0 then new_initiator E sardir c s ttype peer fname = Panic
      else exists t, new_initiator E sardir c s ttype peer fname =
             Ret ({| is_table := (is_table s ++ [t])%list; is_session := newsession (ie_pid E) (is_session s);
                     is_fs := or_fs o; is_cwd := or_cwd o |}, Some t) /\
           tr_direction t = initiator /\ tr_session t = newsession (ie_pid E) (is_session s) /\ tr_peer t = peer /\
           tr_ttype t = ttype /\ tr_filename t = fname /\ tr_fp t = or_fp o /\ tr_filemeta t = fm /\
           tr_conn t = (if ie_dial E peer then Some {| uc_remote := Some peer |} else None) /\
           tr_tstamptype t = cl_timestamp c /\ tr_cliflags t = fst (copy_cliflags c) /\
           tr_data t = [] /\ tr_curfills t = [] /\ tr_havemeta t = false /\ tr_progress t = 0 /\ tr_inrespto t = 0
  | _ => new_initiator E sardir c s ttype peer fname = Panic
  end.
Proof.
  intros E sardir c s ttype peer fname ND F o. unfold new_initiator, initiator_check. rewrite initiator_loop_find, F.
  unfold initiator_add. fold o. destruct (file_meta (or_fs o) (or_cwd o) sardir fname) as [fm| |] eqn:FM; cbn [obind].
  - destruct (c10_copy_cliflags c ND) as (C1 & C2). destruct (Nat.eqb_spec (length (cl_global c)) 0) as [Z|Z].
    + destruct (cl_global c) eqn:G; [|discriminate]. destruct (C1 eq_refl) as (_ & X). destruct (copy_cliflags c) as [cf [e|]]; [reflexivity|].
      exfalso. apply X. reflexivity.
    + rewrite C2 by (intros Y; rewrite Y in Z; apply Z; reflexivity). cbn [obind fst].
      eexists. split; [reflexivity|]. repeat split.
  - reflexivity.
  - exfalso. revert FM. unfold file_meta. destruct (os_lstat _ _ _) as [n|[]]; try discriminate.
    destruct (n_kind n); try discriminate. destruct (os_lstat _ _ _); discriminate.
Qed.
(** C80: an empty table never objects, so the first get overwrites. *)
Lemma c80_unguarded : forall E sardir c s ttype peer fname s' r, is_table s = [] ->
  new_initiator E sardir c s ttype peer fname = Ret (s', r) -> r <> None.
Proof.
  intros E sardir c s ttype peer fname s' r T. unfold new_initiator, initiator_check. rewrite T. cbn [initiator_loop].
  destruct (initiator_add _ _ _ _ _ _ _) as [[s1 t]| |]; cbn [obind]; intros H; inversion H; discriminate.
Qed.

(** ** Answering a request *)
Lemma getstr_no_panic : forall h f, sf_getstr sar h f <> Panic.
Proof. intros h f. unfold sf_getstr. apply opt_name_not_Panic. Qed.
(** C82: a request is refused, or it terminates the process; none is ever accepted. *)
Lemma c82_responder : forall E H sardir c fs cwd table r peer,
  let duplicate := exists t, In t table /\ key_is responder (r_session r) peer t in
  let reachable := exists a, ie_resolve E peer = Some a /\ ie_dial E a = true in
  (duplicate -> new_responder E H sardir c fs cwd table r peer =
     Ret (table, Some ("Transfer Responder for session " ++ itoa (r_session r) ++ " to " ++ peer ++
                       " is currently in progress, cannnot duplicate transfer"))) /\
  (~ reachable -> exists e, new_responder E H sardir c fs cwd table r peer = Ret (table, Some e)) /\
  (~ duplicate -> reachable -> new_responder E H sardir c fs cwd table r peer = Fatal).
Proof.
  intros E H sardir c fs cwd table r peer duplicate reachable. unfold new_responder, new_responder_gen.
  pose proof (tlookup_loop_spec table responder (r_session r) peer) as S.
  destruct (tlookup_loop table responder (r_session r) peer) as [t|].
  - split; [reflexivity|]. split; [eauto|]. intros ND. exfalso. apply ND. destruct S as (i & S1 & S2 & _). exists t. split; auto. eapply nth_error_In; eauto.
  - split; [intros (t & I & K); elim (S t I K)|]. destruct (ie_resolve E peer) as [a|] eqn:RE.
    2:{ split; [eauto|]. intros _ (a & X & _). congruence. }
    destruct (ie_dial E a) eqn:DI; cbn [negb].
    2:{ split; [eauto|]. intros _ (a' & X & Y). congruence. }
    split.
    + intros N. exfalso. apply N. exists a. auto.
    + intros _ _.
      pose proof (getstr_no_panic (r_header r) "version"). destruct (sf_getstr sar (r_header r) "version"); cbn [obind]; [|congruence|reflexivity].
      pose proof (getstr_no_panic (r_header r) "reqtype"). destruct (sf_getstr sar (r_header r) "reqtype"); cbn [obind]; [|congruence|reflexivity].
      reflexivity.
Qed.
(** C82: this is not only due to the flag that does not exist: with any other name in its
    place no request is accepted either. *)
Lemma c82_still_never : forall field E H sardir c fs cwd table r peer table' e,
  new_responder_gen field E H sardir c fs cwd table r peer = Ret (table', e) -> table' = table /\ e <> None.
Proof.
  intros field E H sardir c fs cwd table r peer table' e. unfold new_responder_gen.
  destruct (tlookup_loop _ _ _ _); [intros X; inversion X; split; [auto|discriminate]|].
  destruct (ie_resolve E peer) as [a|]; [|intros X; inversion X; split; [auto|discriminate]].
  destruct (negb (ie_dial E a)); [intros X; inversion X; split; [auto|discriminate]|].
  destruct (sf_getstr sar (r_header r) "version") as [v1| |]; cbn [obind]; try discriminate.
  destruct (sf_getstr sar (r_header r) "reqtype") as [ty| |]; cbn [obind]; try discriminate.
  destruct (sf_getstr sar (r_header r) field) as [v2| |]; cbn [obind]; try discriminate.
  destruct (sf_getstr sar (r_header r) "udplite") as [v3| |]; cbn [obind]; try discriminate.
  destruct (sf_getstr sar (r_header r) "stream") as [v4| |]; cbn [obind]; try discriminate.
  destruct (sf_getstr sar (r_header r) "descriptor") as [dv| |]; cbn [obind]; try discriminate.
  assert (AF : forall cur f v, known_option sar f v = false -> sf_addflag sar cur f v = Fatal).
  { intros cur f v K. unfold sf_addflag. replace (sf_valid sar f v) with false; [reflexivity|]. symmetry.
    destruct (sf_valid sar f v) eqn:SV; auto. apply sf_valid_iff, known_valid in SV. congruence. }
  destruct (one_of ty ["get"; "getrm"; "rm"]).
  - destruct (file_meta fs cwd sardir (r_fname r)) as [[m|]| |]; cbn [obind]; try discriminate.
    + destruct (fm_isdir m); [rewrite AF by (vm_compute; reflexivity); discriminate|].
      destruct (fm_isregular m); rewrite AF by (vm_compute; reflexivity); discriminate.
    + intros X; inversion X; split; [auto|discriminate].
  - destruct (one_of ty ["put"; "putrm"]); [rewrite AF by (vm_compute; reflexivity); discriminate|].
    destruct (String.eqb ty "putblind"); [rewrite AF by (vm_compute; reflexivity); discriminate|].
    cbn [obind].
    set (EE := {| e_fs := fs; e_cwd := cwd; e_sardir := sardir; e_now := ie_now E; e_hash := H |}).
    destruct (dirent_new EE zero_dirent "" (r_fname r)) as [[dd [er|]]| |] eqn:DN; cbn [obind]; try discriminate.
    intros X; inversion X; split; [auto|discriminate].
Qed.

(** ** Histories *)
Lemma tremove_cases : forall l t, fst (tremove l t) = l \/ fst (tremove l t) = removelast l.
Proof.
  intros l t. pose proof (tlookup_loop_spec l (tr_direction t) (tr_session t) (udpaddr_string (tr_peer t))) as S.
  destruct (tlookup_loop l (tr_direction t) (tr_session t) (udpaddr_string (tr_peer t))) as [u|] eqn:E.
  - right. destruct S as (i & S1 & S2 & _). rewrite c62_removes_last; [reflexivity|]. exists u. split; [eapply nth_error_In; eauto|exact S2].
  - left. destruct (c62_absent l t) as (e & ->); [|reflexivity]. intros u I K. apply (S u); auto.
Qed.
Lemma removelast_prefix : forall {A} (l : list A), exists r, l = (removelast l ++ r)%list.
Proof.
  intros A l. destruct l as [|x l _] using rev_ind; [exists []; reflexivity|]. exists [x]. now rewrite removelast_last.
Qed.
Lemma NoDup_prefix : forall {A} (l r : list A), NoDup (l ++ r) -> NoDup l.
Proof.
  induction l as [|x l IH]; intros r H; [constructor|]. cbn [app] in H. inversion H; subst. constructor; eauto.
  intros I. apply H2. apply in_app_iff; auto.
Qed.
Lemma NoDup_snoc : forall {A} (l : list A) x, NoDup l -> ~ In x l -> NoDup (l ++ [x]).
Proof.
  intros A l x N I. rewrite <- (rev_involutive (l ++ [x])). apply NoDup_rev. rewrite rev_app_distr. cbn [rev app].
  constructor; [rewrite <- in_rev; auto|apply NoDup_rev; auto].
Qed.
Lemma tset_map : forall {A} (f : transfer -> A) l i t t', nth_error l i = Some t -> f t' = f t -> map f (tset l i t') = map f l.
Proof.
  intros A f. induction l as [|x l IH]; intros [|i] t t' H E; cbn in *; try discriminate.
  - inversion H; subst. now rewrite E.
  - f_equal. eapply IH; eauto.
Qed.
Lemma tchange_same : forall memory t m t' e, tchange memory t m = Ret (t', e) -> same_otherwise t t'.
Proof.
  intros memory t m t' e. unfold tchange. destruct (sf_getstr _ _ _) as [ty| |]; cbn [obind]; try discriminate.
  destruct (if Nat.eqb (length (tr_data t)) 0 then _ else _) as [data| |]; cbn [obind]; try discriminate.
  destruct (negb _); intros H; inversion H; subst; repeat split.
Qed.
Lemma initiator_add_spec : forall E sardir c s ttype peer fname s' t,
  initiator_add E sardir c s ttype peer fname = Ret (s', t) ->
  is_table s' = (is_table s ++ [t])%list /\ is_session s' = newsession (ie_pid E) (is_session s) /\
  tr_session t = newsession (ie_pid E) (is_session s) /\ tr_filename t = fname /\ tr_peer t = peer /\
  tr_conn t = (if ie_dial E peer then Some {| uc_remote := Some peer |} else None).
Proof.
  intros E sardir c s ttype peer fname s' t. unfold initiator_add.
  destruct (file_meta _ _ _ _) as [fm| |]; cbn [obind]; try discriminate.
  destruct (copy_cliflags c) as [cf [e|]]; try discriminate. intros H; inversion H; subst. repeat split.
Qed.

Definition job (t : transfer) : string * string := (tr_filename t, udpaddr_string (tr_peer t)).
Definition own_conn (t : transfer) : Prop := tr_conn t = None \/ tr_conn t = Some {| uc_remote := Some (tr_peer t) |}.
Definition face (t : transfer) := (tr_session t, tr_conn t, tr_peer t, tr_filename t).
Lemma same_face : forall t t', same_otherwise t t' -> face t' = face t.
Proof. intros t t' H. unfold same_otherwise in H. decompose [and] H. unfold face. congruence. Qed.
Definition inv (pid : N) (n : nat) (s : istate) : Prop :=
  is_session s = match n with O => 0 | S k => session_id pid k end /\
  (exists ks, NoDup ks /\ (forall k, In k ks -> (k < n)%nat) /\ map tr_session (is_table s) = map (session_id pid) ks) /\
  (forall t, In t (is_table s) -> own_conn t) /\ NoDup (map job (is_table s)).

Lemma inv_face : forall pid n s l, inv pid n s -> map face l = map face (is_table s) ->
  inv pid n {| is_table := l; is_session := is_session s; is_fs := is_fs s; is_cwd := is_cwd s |}.
Proof.
  intros pid n s l (I1 & (ks & K1 & K2 & K3) & I3 & I4) F. unfold inv. cbn [is_session is_table].
  split; [exact I1|].
  assert (FS : map tr_session l = map tr_session (is_table s)).
  { transitivity (map (fun f => fst (fst (fst f))) (map face l)); [rewrite map_map; reflexivity|]. rewrite F, map_map. reflexivity. }
  assert (FJ : map job l = map job (is_table s)).
  { transitivity (map (fun f => (snd f, udpaddr_string (snd (fst f)))) (map face l)); [rewrite map_map; reflexivity|]. rewrite F, map_map. reflexivity. }
  split; [exists ks; rewrite FS; auto|]. split; [|rewrite FJ; auto].
  intros t It. assert (X : In (face t) (map face (is_table s))) by (rewrite <- F; apply in_map; auto).
  apply in_map_iff in X. destruct X as (u & Fu & Iu). specialize (I3 u Iu).
  unfold face in Fu. inversion Fu. unfold own_conn in *. congruence.
Qed.
Lemma inv_prefix : forall pid n s l r, inv pid n s -> is_table s = (l ++ r)%list ->
  inv pid n {| is_table := l; is_session := is_session s; is_fs := is_fs s; is_cwd := is_cwd s |}.
Proof.
  intros pid n s l r (I1 & (ks & K1 & K2 & K3) & I3 & I4) E. unfold inv. cbn [is_session is_table]. rewrite E in *.
  split; [exact I1|]. split; [|split].
  - exists (firstn (length l) ks). split; [|split].
    + rewrite <- (firstn_skipn (length l) ks) in K1. apply NoDup_prefix in K1. exact K1.
    + intros k Ik. apply K2. rewrite <- (firstn_skipn (length l) ks). apply in_app_iff; auto.
    + rewrite map_app in K3. rewrite <- firstn_map, <- K3. rewrite <- (map_length tr_session l), firstn_app, Nat.sub_diag, firstn_all. cbn [firstn]. now rewrite app_nil_r.
  - intros t It. apply I3. apply in_app_iff; auto.
  - rewrite map_app in I4. apply NoDup_prefix in I4. exact I4.
Qed.
Lemma istate_eta : forall s, {| is_table := is_table s; is_session := is_session s; is_fs := is_fs s; is_cwd := is_cwd s |} = s.
Proof. destruct s; reflexivity. Qed.
Lemma history_inv : forall pid n s, history pid n s -> inv pid n s.
Proof.
  intros pid n s H. induction H as [s T S|n s E sardir c ttype peer fname s' H IH P N|n s E sardir c ttype peer fname s' t H IH P N
    |n s t H IH|n s i t memory m t' e H IH Ht C|n s E Hh sardir c r peer table e H IH R].
  - unfold inv. rewrite T, S. split; [reflexivity|]. split; [exists []; repeat split; [constructor|intros k []]|]. split; [intros t []|constructor].
  - destruct (find (in_the_way (overwrites (is_fs s) (is_cwd s) sardir ttype fname) fname peer) (is_table s)) as [i|] eqn:F.
    + rewrite (c80_refused E sardir c s ttype peer fname i F) in N. inversion N; subst s'. clear N.
      destruct (without_connection i); [|rewrite istate_eta; auto].
      destruct (removelast_prefix (is_table s)) as (r & X). eapply inv_prefix; eauto.
    + exfalso. unfold new_initiator, initiator_check in N. rewrite initiator_loop_find, F in N.
      destruct (initiator_add _ _ _ _ _ _ _) as [[s1 t]| |]; cbn [obind] in N; discriminate.
  - unfold new_initiator, initiator_check in N. rewrite initiator_loop_find in N.
    destruct (find (in_the_way (overwrites (is_fs s) (is_cwd s) sardir ttype fname) fname peer) (is_table s)) as [i|] eqn:F; [discriminate|].
    destruct (initiator_add E sardir c s ttype peer fname) as [[s1 t1]| |] eqn:A; cbn [obind] in N; inversion N; subst s1 t1.
    apply initiator_add_spec in A. destruct A as (A1 & A2 & A3 & A4 & A5 & A6). rewrite P in *.
    destruct IH as (I1 & (ks & K1 & K2 & K3) & I3 & I4).
    assert (SI : newsession pid (is_session s) = session_id pid n) by (rewrite I1; destruct n; reflexivity).
    unfold inv. rewrite A1, A2, SI. split; [reflexivity|]. split; [|split].
    + exists (ks ++ [n])%list. split; [|split].
      * apply NoDup_snoc; auto. intros X. apply K2 in X. lia.
      * intros k X. apply in_app_iff in X. destruct X as [X|[<-|[]]]; [apply K2 in X|]; lia.
      * rewrite !map_app, K3. cbn [map]. rewrite A3, SI. reflexivity.
    + intros u X. apply in_app_iff in X. destruct X as [X|[<-|[]]]; [auto|]. unfold own_conn. rewrite A5, A6. destruct (ie_dial E peer); auto.
    + rewrite map_app. cbn [map]. apply NoDup_snoc; auto. intros X. apply in_map_iff in X. destruct X as (u & J & Iu).
      pose proof (find_none _ _ F u Iu) as W. unfold in_the_way in W. apply orb_false_iff in W. destruct W as (_ & W).
      unfold same_job in W. unfold job in J. inversion J as [[J1 J2]]. rewrite J1, J2, A4, A5, !String.eqb_refl in W. discriminate.
  - destruct (tremove_cases (is_table s) t) as [-> | ->]; [rewrite istate_eta; auto|].
    destruct (removelast_prefix (is_table s)) as (r & X). eapply inv_prefix; eauto.
  - apply inv_face; auto. apply tset_map with t; auto. apply same_face. eapply tchange_same; eauto.
  - apply c82_still_never in R. destruct R as (-> & _). rewrite istate_eta. auto.
Qed.

(** C61: in every history the transfers in the table have different session ids, as long
    as the ids have not wrapped. *)
Lemma c61_table : forall pid n s, history pid n s -> pid < 2 ^ 32 -> N.of_nat n <= 2 ^ 32 - pid -> NoDup (map tr_session (is_table s)).
Proof.
  intros pid n s H P L. apply history_inv in H. destruct H as (_ & (ks & K1 & K2 & ->) & _).
  induction ks as [|k ks IH]; [constructor|]. cbn [map]. inversion K1; subst. constructor.
  - intros I. apply in_map_iff in I. destruct I as (j & E & Ij).
    assert (k < n)%nat by (apply K2; left; auto). assert (j < n)%nat by (apply K2; right; auto).
    destruct (c61_equal_iff pid j k P) as (_ & U). rewrite (U ltac:(lia) ltac:(lia) E) in Ij. contradiction.
  - apply IH; auto. intros j Ij. apply K2. right; auto.
Qed.
(** C79: every transfer of every history that has a connection has one that was dialled,
    so no status report about any of them is ever sent. *)
Lemma c79_never_sent : forall pid n s t now mtu oks flags r bufs, history pid n s -> In t (is_table s) ->
  write_status now mtu oks t flags = Ret (r, bufs) -> bufs = [].
Proof.
  intros pid n s t now mtu oks flags r bufs H I W. apply history_inv in H. destruct H as (_ & _ & H & _).
  destruct (H t I) as [C|C].
  - unfold write_status in W. rewrite C in W. inversion W; auto.
  - eapply c79_dialled in W; eauto. apply W. reflexivity.
Qed.
(** C81: in every history in which calls do not overlap, no two transfers of the table are
    of the same file with the same peer. *)
Lemma c81_no_duplicates : forall pid n s i j t u, history pid n s ->
  nth_error (is_table s) i = Some t -> nth_error (is_table s) j = Some u ->
  tr_filename t = tr_filename u -> udpaddr_string (tr_peer t) = udpaddr_string (tr_peer u) -> i = j.
Proof.
  intros pid n s i j t u H Hi Hj F P. apply history_inv in H. destruct H as (_ & _ & _ & H).
  eapply NoDup_nth_error; [exact H| |].
  - rewrite map_length. apply nth_error_Some. congruence.
  - rewrite !nth_error_map, Hi, Hj. cbn. unfold job. congruence.
Qed.

Lemma jobs_app : forall f p l m, jobs f p (l ++ m) = (jobs f p l + jobs f p m)%nat.
Proof. intros. unfold jobs. now rewrite filter_app, app_length. Qed.
Lemma find_none_jobs : forall o f p l, find (in_the_way o f p) l = None -> jobs f p l = 0%nat.
Proof.
  intros o f p l. induction l as [|x l IH]; [reflexivity|]. cbn [find]. destruct (in_the_way o f p x) eqn:E; [discriminate|].
  intros H. unfold jobs. cbn [filter]. unfold in_the_way in E. apply orb_false_iff in E. destruct E as (_ & ->). apply IH; auto.
Qed.
Lemma find_none_conn : forall o f p l, find (in_the_way o f p) l = None -> forall t, In t l -> without_connection t = false.
Proof.
  intros o f p l H t I. pose proof (find_none _ _ H t I) as W. unfold in_the_way in W. apply orb_false_iff in W. destruct W as (W & _).
  apply orb_false_iff in W. apply W.
Qed.
Lemma jobs_one : forall f p t, tr_filename t = f -> tr_peer t = p -> jobs f p [t] = 1%nat.
Proof. intros f p t <- <-. unfold jobs. cbn [filter]. unfold same_job. rewrite !String.eqb_refl. reflexivity. Qed.

(** C81: two overlapping calls for the same file and peer, in every interleaving: two
    transfers exactly when both look before either adds. *)
Lemma c81_two_callers : forall c1 c2 s s' sched,
  ic_fname c1 = ic_fname c2 -> ic_peer c1 = ic_peer c2 ->
  ie_dial (ic_env c1) (ic_peer c1) = true -> ie_dial (ic_env c2) (ic_peer c2) = true ->
  initiator_check (is_fs s) (is_cwd s) (ic_sardir c1) (is_table s) (ic_ttype c1) (ic_peer c1) (ic_fname c1) = None ->
  initiator_check (is_fs s) (is_cwd s) (ic_sardir c2) (is_table s) (ic_ttype c2) (ic_peer c2) (ic_fname c2) = None ->
  Permutation sched [true; true; false; false] ->
  run_two sched c1 c2 IStart IStart s = Ret s' ->
  jobs (ic_fname c1) (ic_peer c1) (is_table s') = (if Bool.eqb (hd true sched) (hd true (tl sched)) then 1 else 2)%nat.
Proof.
  intros c1 c2 s s' sched EF EP D1 D2 C1 C2 P R.
  assert (J0 : jobs (ic_fname c1) (ic_peer c1) (is_table s) = 0%nat).
  { unfold initiator_check in C1. rewrite initiator_loop_find in C1.
    destruct (find _ (is_table s)) eqn:F; [discriminate|]. eapply find_none_jobs; eauto. }
  assert (CN : forall t, In t (is_table s) -> without_connection t = false).
  { unfold initiator_check in C1. rewrite initiator_loop_find in C1.
    destruct (find _ (is_table s)) eqn:F; [discriminate|]. eapply find_none_conn; eauto. }
  (* after one call the other one finds the same job *)
  assert (BL : forall s1 t c, is_table s1 = (is_table s ++ [t])%list -> tr_filename t = ic_fname c1 -> tr_peer t = ic_peer c1 ->
     without_connection t = false -> ic_fname c = ic_fname c1 -> ic_peer c = ic_peer c1 ->
     initiator_check (is_fs s1) (is_cwd s1) (ic_sardir c) (is_table s1) (ic_ttype c) (ic_peer c) (ic_fname c) = Some (is_table s1)).
  { intros s1 t c T F1 F2 F3 F4 F5. unfold initiator_check. rewrite initiator_loop_find.
    destruct (find _ (is_table s1)) as [i|] eqn:F.
    - apply find_some in F. destruct F as (Ii & _). assert (W : without_connection i = false).
      { rewrite T in Ii. apply in_app_iff in Ii. destruct Ii as [Ii|[<-|[]]]; auto. }
      rewrite W. reflexivity.
    - exfalso. assert (It : In t (is_table s1)) by (rewrite T; apply in_app_iff; right; left; auto).
      pose proof (find_none _ _ F t It) as W. unfold in_the_way, same_job in W. rewrite F4, F5, F1, F2, !String.eqb_refl, orb_true_r in W. discriminate. }
  assert (AD : forall c s1 s2 t, ie_dial (ic_env c) (ic_peer c) = true -> ic_fname c = ic_fname c1 -> ic_peer c = ic_peer c1 ->
     initiator_add (ic_env c) (ic_sardir c) (ic_cli c) s1 (ic_ttype c) (ic_peer c) (ic_fname c) = Ret (s2, t) ->
     is_table s2 = (is_table s1 ++ [t])%list /\ tr_filename t = ic_fname c1 /\ tr_peer t = ic_peer c1 /\ without_connection t = false).
  { intros c s1 s2 t D F1 F2 A. apply initiator_add_spec in A. destruct A as (A1 & _ & _ & A4 & A5 & A6).
    rewrite D in A6. unfold without_connection. rewrite A6. repeat split; congruence. }
  assert (CASES : sched = [true; true; false; false] \/ sched = [true; false; true; false] \/ sched = [true; false; false; true] \/
                  sched = [false; true; true; false] \/ sched = [false; true; false; true] \/ sched = [false; false; true; true]).
  { assert (L : length sched = 4%nat) by (rewrite (Permutation_length P); reflexivity).
    pose proof (Permutation_count_occ Bool.bool_dec sched [true; true; false; false]) as PC. pose proof (proj1 PC P) as P0. pose proof (P0 true) as P1. pose proof (P0 false) as P2. clear PC P P0.
    destruct sched as [|b1 [|b2 [|b3 [|b4 [|]]]]]; try discriminate L.
    destruct b1, b2, b3, b4; cbn in P1, P2; try discriminate; auto 10. }
  destruct CASES as [-> |[-> |[-> |[-> |[-> | ->]]]]]; cbn [hd tl Bool.eqb]; cbn [run_two] in R;
    repeat (first
      [ rewrite C1 in R | rewrite C2 in R
      | match type of R with context [istep _ IStart s] => unfold istep at 1 in R end
      ]; cbn [obind] in R).
  - destruct (istep c1 ILooked s) as [[p s1]| |] eqn:S1; cbn [obind] in R; try discriminate.
    cbn [istep] in S1. destruct (initiator_add _ _ _ s _ _ _) as [[s2 t]| |] eqn:A; cbn [obind] in S1; inversion S1; subst p s1.
    apply AD in A; auto. destruct A as (A1 & A2 & A3 & A4).
    unfold istep at 1 in R. rewrite (BL s2 t c2) in R by auto. cbn [obind istep] in R. inversion R; subst s'. cbn [is_table].
    rewrite A1, jobs_app, J0, jobs_one; auto.
  - destruct (istep c1 ILooked s) as [[p s1]| |] eqn:S1; cbn [obind] in R; try discriminate.
    cbn [istep] in S1. destruct (initiator_add _ _ _ s _ _ _) as [[s2 t]| |] eqn:A; cbn [obind] in S1; inversion S1; subst p s1.
    destruct (istep c2 ILooked s2) as [[p s3]| |] eqn:S2; cbn [obind] in R; try discriminate.
    cbn [istep] in S2. destruct (initiator_add _ _ _ s2 _ _ _) as [[s4 t']| |] eqn:A'; cbn [obind] in S2; inversion S2; subst p s3.
    apply AD in A; auto. apply AD in A'; auto. destruct A as (A1 & A2 & A3 & A4). destruct A' as (B1 & B2 & B3 & B4).
    inversion R; subst s'. rewrite B1, A1, !jobs_app, J0, !jobs_one; auto.
  - destruct (istep c2 ILooked s) as [[p s1]| |] eqn:S1; cbn [obind] in R; try discriminate.
    cbn [istep] in S1. destruct (initiator_add _ _ _ s _ _ _) as [[s2 t]| |] eqn:A; cbn [obind] in S1; inversion S1; subst p s1.
    destruct (istep c1 ILooked s2) as [[p s3]| |] eqn:S2; cbn [obind] in R; try discriminate.
    cbn [istep] in S2. destruct (initiator_add _ _ _ s2 _ _ _) as [[s4 t']| |] eqn:A'; cbn [obind] in S2; inversion S2; subst p s3.
    apply AD in A; auto. apply AD in A'; auto. destruct A as (A1 & A2 & A3 & A4). destruct A' as (B1 & B2 & B3 & B4).
    inversion R; subst s'. rewrite B1, A1, !jobs_app, J0, !jobs_one; auto.
  - destruct (istep c1 ILooked s) as [[p s1]| |] eqn:S1; cbn [obind] in R; try discriminate.
    cbn [istep] in S1. destruct (initiator_add _ _ _ s _ _ _) as [[s2 t]| |] eqn:A; cbn [obind] in S1; inversion S1; subst p s1.
    destruct (istep c2 ILooked s2) as [[p s3]| |] eqn:S2; cbn [obind] in R; try discriminate.
    cbn [istep] in S2. destruct (initiator_add _ _ _ s2 _ _ _) as [[s4 t']| |] eqn:A'; cbn [obind] in S2; inversion S2; subst p s3.
    apply AD in A; auto. apply AD in A'; auto. destruct A as (A1 & A2 & A3 & A4). destruct A' as (B1 & B2 & B3 & B4).
    inversion R; subst s'. rewrite B1, A1, !jobs_app, J0, !jobs_one; auto.
  - destruct (istep c2 ILooked s) as [[p s1]| |] eqn:S1; cbn [obind] in R; try discriminate.
    cbn [istep] in S1. destruct (initiator_add _ _ _ s _ _ _) as [[s2 t]| |] eqn:A; cbn [obind] in S1; inversion S1; subst p s1.
    destruct (istep c1 ILooked s2) as [[p s3]| |] eqn:S2; cbn [obind] in R; try discriminate.
    cbn [istep] in S2. destruct (initiator_add _ _ _ s2 _ _ _) as [[s4 t']| |] eqn:A'; cbn [obind] in S2; inversion S2; subst p s3.
    apply AD in A; auto. apply AD in A'; auto. destruct A as (A1 & A2 & A3 & A4). destruct A' as (B1 & B2 & B3 & B4).
    inversion R; subst s'. rewrite B1, A1, !jobs_app, J0, !jobs_one; auto.
  - destruct (istep c2 ILooked s) as [[p s1]| |] eqn:S1; cbn [obind] in R; try discriminate.
    cbn [istep] in S1. destruct (initiator_add _ _ _ s _ _ _) as [[s2 t]| |] eqn:A; cbn [obind] in S1; inversion S1; subst p s1.
    apply AD in A; auto. destruct A as (A1 & A2 & A3 & A4).
    unfold istep at 1 in R. rewrite (BL s2 t c1) in R by auto. cbn [obind istep] in R. inversion R; subst s'. cbn [is_table].
    rewrite A1, jobs_app, J0, jobs_one; auto.
Qed.

(** Three transfers started one after the other, the same one refused twice *)
Definition exi_time : gotime := {| unix_secs := 1700000000; unix_nanos := 5 |}.
Definition exi_fs : fsys :=
  [([], {| n_kind := KDir; n_size := 4096; n_mtime := exi_time; n_ctime := exi_time |});
   (["s"], {| n_kind := KDir; n_size := 4096; n_mtime := exi_time; n_ctime := exi_time |});
   (["s"; "a"], {| n_kind := KFile (bytes_of "hello"); n_size := 5; n_mtime := exi_time; n_ctime := exi_time |})].
Definition exi_env : ienv :=
  {| ie_now := exi_time; ie_pid := 4294967293; ie_dial := fun a => negb (String.eqb (ua_ip a) "10.0.0.9"); ie_resolve := fun _ => Some ex_peer; ie_chdir := true |}.
Definition exi_start : istate := {| is_table := []; is_session := 0; is_fs := exi_fs; is_cwd := [] |}.
Definition exi_down : udpaddr := {| ua_ip := "10.0.0.9"; ua_port := 7542; ua_zone := "" |}.
Definition exi_do (s : istate) (ttype : string) (peer : udpaddr) (fname : string) : istate :=
  match new_initiator exi_env "/s" sar_cli s ttype peer fname with Ret (s', _) => s' | _ => s end.
Definition exi_s1 := exi_do exi_start "put" ex_peer "a".
Definition exi_s2 := exi_do exi_s1 "put" ex_peer2 "a".
Definition exi_s3 := exi_do exi_s2 "put" exi_down "a".
Definition exi_s4 := exi_do exi_s3 "put" ex_peer "x".
Definition view (s : istate) := map (fun t => (tr_session t, ua_ip (tr_peer t), tr_filename t, without_connection t)) (is_table s).
Example c80_ex :
  view exi_s1 = [(4294967294, "10.0.0.1", "a", false)] /\
  new_initiator exi_env "/s" sar_cli exi_s1 "put" ex_peer "a" = Ret (exi_s1, None) /\
  view exi_s2 = [(4294967294, "10.0.0.1", "a", false); (4294967295, "fe80::1", "a", false)] /\
  new_initiator exi_env "/s" sar_cli exi_s2 "get" exi_down "a" = Ret (exi_s2, None) /\
  (exists t, new_initiator exi_env "/s" sar_cli exi_start "get" exi_down "a" = Ret (exi_do exi_start "get" exi_down "a", Some t)) /\
  view exi_s3 = [(4294967294, "10.0.0.1", "a", false); (4294967295, "fe80::1", "a", false); (0, "10.0.0.9", "a", true)] /\
  view exi_s4 = [(4294967294, "10.0.0.1", "a", false); (4294967295, "fe80::1", "a", false)].
Proof.
  split; [vm_compute; reflexivity|]. split; [vm_compute; reflexivity|]. split; [vm_compute; reflexivity|]. split; [vm_compute; reflexivity|].
  split; [eexists; vm_compute; reflexivity|]. split; vm_compute; reflexivity.
Qed.
Example c81_history_ex : history 4294967293 2 exi_s2.
Proof.
  eapply (hi_started _ 1 exi_s1 exi_env "/s" sar_cli "put" ex_peer2 "a"); [|reflexivity|vm_compute; reflexivity].
  eapply (hi_started _ 0 exi_start exi_env "/s" sar_cli "put" ex_peer "a"); [|reflexivity|vm_compute; reflexivity].
  apply hi_start; reflexivity.
Qed.
Definition exi_call : icall := {| ic_env := exi_env; ic_sardir := "/s"; ic_cli := sar_cli; ic_ttype := "put"; ic_peer := ex_peer; ic_fname := "a" |}.
Example c81_two_ex :
  initiator_check (is_fs exi_start) (is_cwd exi_start) "/s" (is_table exi_start) "put" ex_peer "a" = None /\
  (exists s, run_two [true; true; false; false] exi_call exi_call IStart IStart exi_start = Ret s /\ view s = [(4294967294, "10.0.0.1", "a", false)]) /\
  (exists s, run_two [true; false; false; true] exi_call exi_call IStart IStart exi_start = Ret s /\
             view s = [(4294967294, "10.0.0.1", "a", false); (4294967295, "10.0.0.1", "a", false)]).
Proof.
  split; [reflexivity|]. split; eexists; (split; [vm_compute; reflexivity|reflexivity]).
Qed.
Example c79_ex : exists t, In t (is_table exi_s2) /\ tr_peer t = ex_peer2 /\
  write_status exi_time 1500 (fun _ => true) t "descriptor=d16,errcode=success,reqtstamp=no" = Ret ("badstatus", []).
Proof.
  exists (nth 1 (is_table exi_s2) (ex_transfer 0 ex_peer "")). split; [right; left; vm_compute; reflexivity|]. split; vm_compute; reflexivity.
Qed.
Example c82_ex :
  let r := {| r_header := 0x21000001; r_session := 5; r_fname := "a"; r_auth := [] |} in
  let H := {| hx_crc32 := fun _ => zeros 4; hx_md5 := fun _ => zeros 16; hx_sha1 := fun _ => zeros 20 |} in
  new_responder exi_env H "/s" sar_cli exi_fs [] (is_table exi_s2) r "10.0.0.1:7542" = Fatal /\
  exists e, new_responder {| ie_now := exi_time; ie_pid := 1; ie_dial := fun _ => false; ie_resolve := fun _ => Some ex_peer; ie_chdir := true |}
              H "/s" sar_cli exi_fs [] (is_table exi_s2) r "10.0.0.1:7542" = Ret (is_table exi_s2, Some e).
Proof. intros r H. split; [vm_compute; reflexivity|]. eexists. vm_compute. reflexivity. Qed.
