(** * Facts shared by the proofs about the frame codecs *)

From Verif Require Import GoBase GoFacts Flags SpecFlags FlagsFacts Config Shipped ConfigFacts SpecWire SarFacts Timestamp SpecTime TimeMain FlagStrFacts Data SpecFrames.
Local Open Scope string_scope.
Local Open Scope N_scope.

Lemma ts_type_none : forall v, ts_type v = None -> v = 0 \/ 6 <= v.
Proof.
  intros v H. destruct v as [|p]; auto. right.
  do 3 (destruct p as [p|p|]; try discriminate; try lia).
Qed.

Lemma ts_put_spec : forall t, t_header t < 256 ->
  match ts_bytes t with
  | Some b => ts_put t = Ret b /\ length b = 16%nat
  | None => ts_put t = Fatal
  end.
Proof.
  intros t B. unfold ts_bytes. destruct (ts_type (t_header t)) as [L|] eqn:T; [apply c11_put_layout; auto|].
  destruct (ts_type_none _ T) as [Z|Z].
  - rewrite Z. change (0 =? 0) with true. cbv iota zeta.
    unfold ts_put. rewrite Z. change (st_name sar 0) with (Ret "localinterp" : outcome string).
    change (copy_range (make_bytes 16) 0 1 [byte_of_N 0]) with (Ret (make_bytes 16)).
    cbn [obind]. eval_eqbs. unfold copy_range. change (1 <=? 15)%nat with true. change (15 <=? length (make_bytes 16))%nat with true.
    cbn [andb]. change (15 - 1)%nat with 14%nat.
    set (s := firstn 14 (bytes_of (t_local t))).
    assert (Ls : (length s <= 14)%nat) by (unfold s; rewrite firstn_length; lia).
    rewrite wire_be. change (be_bytes 1 0) with (make_bytes 1). change zeros with make_bytes.
    split.
    + f_equal. change (make_bytes 16) with (make_bytes 1 ++ make_bytes 15)%list.
      rewrite overwrite_make by (auto; lia). rewrite <- app_assoc. reflexivity.
    + rewrite !app_length, !make_bytes_length. lia.
  - replace (t_header t =? 0) with false by (symmetry; apply N.eqb_neq; lia).
    unfold ts_put. rewrite st_name_eq by auto. rewrite opt_name_tstamp_other by auto.
    destruct (copy_range (make_bytes 16) 0 1 [byte_of_N (t_header t)]) eqn:E; [reflexivity| |]; 
      change (make_bytes 16) with ([] ++ make_bytes 16)%list in E; rewrite copy_range_make in E by (simpl; auto; lia); discriminate.
Qed.

Lemma number_at_shift : forall f i j k n, (j + k <= n)%nat ->
  number_at (firstn n (skipn i f)) j k = number_at f (i + j) k.
Proof.
  intros. rewrite !number_at_be. f_equal.
  rewrite skipn_firstn_comm, firstn_firstn. rewrite Nat.min_l by lia. f_equal.
  clear. revert f. induction i; intros; [reflexivity|].
  destruct f; [rewrite !skipn_nil; reflexivity|]. simpl. apply IHi.
Qed.

(** Reading the timestamp of a frame *)
Lemma ts_get_at : forall t f i, (i + 16 <= length f)%nat ->
  match ts_at f i with
  | Some t' => ts_get t (firstn 16 (skipn i f)) = Ret (t', None)
  | None => if number_at f i 1 =? 0 then exists t' e, ts_get t (firstn 16 (skipn i f)) = Ret (t', Some e)
            else ts_get t (firstn 16 (skipn i f)) = Fatal
  end.
Proof.
  intros t f i L. assert (LL : length (firstn 16 (skipn i f)) = 16%nat) by (rewrite firstn_length, skipn_length; lia).
  pose proof (c14_get_spec t _ LL) as S. rewrite !number_at_shift in S by lia. rewrite Nat.add_0_r in S.
  unfold ts_at. destruct (ts_type (number_at f i 1)) as [l|] eqn:T; [|exact S].
  rewrite !number_at_shift in S by (destruct (ts_type_cases _ _ T) as [E|[E|[E|[E|E]]]]; rewrite E in T; inversion T; simpl; lia).
  rewrite S. rewrite Nat.add_assoc. reflexivity.
Qed.

Lemma after_ts_cases : forall h, (hd_reqtstamp h = 0 /\ after_ts h = 8%nat) \/ (hd_reqtstamp h = 1 /\ after_ts h = 24%nat).
Proof. intros; unfold after_ts; destruct (hd_reqtstamp_cases h) as [E|E]; rewrite E; auto. Qed.

(** The verdict on timestamps in terms of the decoded value *)
Lemma ts_verdict_spec : forall f, (24 <= length f)%nat -> hd_reqtstamp (number_at f 0 4) = 1 ->
  match ts_at f 8 with
  | Some _ => ts_verdict f = Accept
  | None => ts_verdict f = if number_at f 8 1 =? 0 then Reject else Kill
  end.
Proof.
  intros f L H. unfold ts_verdict, ts_at. rewrite H. change (1 =? 1) with true. cbv iota zeta.
  replace (length f <? 24)%nat with false by (symmetry; apply Nat.ltb_ge; lia).
  destruct (ts_type (number_at f 8 1)) eqn:T.
  - destruct (ts_type_cases _ _ T) as [E|[E|[E|[E|E]]]]; rewrite E; reflexivity.
  - destruct (ts_type_none _ T) as [E|E]; [rewrite E; reflexivity|].
    replace (number_at f 8 1 =? 0) with false by (symmetry; apply N.eqb_neq; lia).
    destruct (number_at f 8 1) as [|p]; [lia|].
    do 3 (destruct p as [p|p|]; try discriminate; try reflexivity; try lia).
Qed.

Lemma ts_at_bytes : forall a t ts c i, i = length a -> proper_stamp t -> ts_bytes t = Some ts ->
  ts_at (a ++ ts ++ c) i = Some t /\ length ts = 16%nat.
Proof.
  intros a t ts c i -> (L & T & B & F1 & F2 & E1 & E2) P.
  pose proof (ts_put_spec t B) as S. rewrite P in S. destruct S as [S LP]. split; [|exact LP].
  destruct (c11_roundtrip t t L B T (conj F1 F2)) as (b & P' & Lb & G).
  assert (b = ts) by congruence. subst b.
  pose proof (ts_get_at t (a ++ ts ++ c) (length a)) as A.
  rewrite skipn_app_exact, firstn_app_exact in A by auto.
  rewrite G in A. specialize (A ltac:(rewrite !app_length; lia)).
  assert (X : t = {| t_header := t_header t; t_secs := t_secs t; t_nsecs := t_nsecs t; t_local := ""; t_ttype := tl_name L |}).
  { destruct t; cbn in *; subst; reflexivity. }
  rewrite <- X in A.
  destruct (ts_at (a ++ ts ++ c) (length a)); [congruence|].
  destruct (number_at (a ++ ts ++ c) (length a) 1 =? 0); [destruct A as (? & ? & A)|]; congruence.
Qed.

Lemma proper_bytes : forall t, proper_stamp t -> exists ts, ts_bytes t = Some ts /\ length ts = 16%nat.
Proof.
  intros t (L & T & B & _). pose proof (ts_put_spec t B) as S. unfold ts_bytes in *. rewrite T in *.
  eexists; split; [reflexivity|tauto].
Qed.

Lemma verdict_panic : forall {A} (r : outcome (A * error)), verdict_of r = Crash <-> r = Panic.
Proof. intros A [[? [?|]]| |]; cbn; split; congruence. Qed.
Lemma verdict_fatal : forall {A} (r : outcome (A * error)), verdict_of r = Kill <-> r = Fatal.
Proof. intros A [[? [?|]]| |]; cbn; split; congruence. Qed.
Lemma verdict_reject : forall {A} (r : outcome (A * error)), verdict_of r = Reject <-> exists x e, r = Ret (x, Some e).
Proof. intros A [[? [?|]]| |]; cbn; split; try congruence; eauto; intros (? & ? & ?); congruence. Qed.
Lemma verdict_accept : forall {A} (r : outcome (A * error)), verdict_of r = Accept <-> exists x, r = Ret (x, None).
Proof. intros A [[? [?|]]| |]; cbn; split; try congruence; eauto; intros (? & ?); congruence. Qed.

Lemma wire_1 : forall v, wire 1 v = [byte_of_N v].
Proof. intros; rewrite wire_be. unfold be_bytes. change (256 ^ N.of_nat 0) with 1. rewrite N.div_1_r. reflexivity. Qed.

Ltac fstep :=
  first [ rewrite put_uint_make by (rewrite ?app_length, ?be_bytes_length; cbn [length]; lia)
        | rewrite copy_range_make by (rewrite ?app_length, ?be_bytes_length; cbn [length]; lia)
        | rewrite copy_from_make by (rewrite ?app_length, ?be_bytes_length; cbn [length]; lia) ]; cbn [obind].

Lemma get_uint_panic' : forall k l i j, j = (i + k)%nat -> (length l < j)%nat -> get_uint k l i j = Panic.
Proof. intros; subst; apply get_uint_panic; auto. Qed.

Lemma mod_pow_small : forall v k, v < 2 ^ (8 * N.of_nat k) -> v mod 2 ^ (8 * N.of_nat k) = v.
Proof. intros; apply N.mod_small; auto. Qed.
Lemma u32_pow : forall v, v < 2 ^ 32 -> v mod 2 ^ (8 * N.of_nat 4) = v.
Proof. intros; apply N.mod_small; auto. Qed.

