(** * Facts about a string that is read while it is assigned *)

From Verif Require Import GoBase Torn SpecTorn.
From Coq Require Import Lia PeanoNat.
Local Open Scope string_scope.
Local Open Scope N_scope.

Definition writes (f : word) (hs : list strhdr) : list (word * strhdr) := flat_map (fun h => map (fun w => (w, h)) (both f)) hs.
Definition values (cmds : list (list string)) : list string := flat_map (fun ws => match stamp_set ws with Some v => [v] | None => [] end) cmds.
Lemma to_write_values f at_ cmds : to_write f at_ cmds = writes f (map (literal at_) (values cmds)).
Proof.
  unfold to_write, writes, values. induction cmds as [|ws r IH]; [reflexivity|]. cbn [flat_map]. destruct (stamp_set ws) as [v|].
  - cbn [app map flat_map]. now rewrite IH.
  - exact IH.
Qed.
Lemma writes_length f hs : List.length (writes f hs) = (2 * List.length hs)%nat.
Proof. induction hs as [|h r IH]; [reflexivity|]. unfold writes in *. cbn [flat_map]. rewrite app_length, IH. destruct f; cbn; lia. Qed.

(** The number of the type whose place, and whose length, is there after [k] writes *)
Definition place_at (f : word) (k : nat) : nat := match f with Size => k / 2 | Where => (k + 1) / 2 end.
Definition length_at (f : word) (k : nat) : nat := match f with Size => (k + 1) / 2 | Where => k / 2 end.
Definition nth_hdr (h0 : strhdr) (hs : list strhdr) (i : nat) : strhdr := nth i (h0 :: hs) h0.
Definition header_at (f : word) (h0 : strhdr) (hs : list strhdr) (k : nat) : strhdr :=
  {| sh_ptr := sh_ptr (nth_hdr h0 hs (place_at f k)); sh_len := sh_len (nth_hdr h0 hs (length_at f k)) |}.

Lemma half_even m : (2 * m / 2 = m /\ (2 * m + 1) / 2 = m /\ (2 * m + 2) / 2 = S m)%nat.
Proof.
  repeat split.
  - rewrite Nat.mul_comm. now rewrite Nat.div_mul.
  - rewrite Nat.add_comm, Nat.mul_comm, Nat.div_add by lia. cbn. lia.
  - replace (2 * m + 2)%nat with (S m * 2)%nat by lia. now rewrite Nat.div_mul.
Qed.
Lemma skip_pair f hs m h : nth_error hs m = Some h ->
  skipn (2 * m) (writes f hs) = ((f, h) :: skipn (2 * m + 1) (writes f hs))%list /\
  skipn (2 * m + 1) (writes f hs) = ((match f with Where => Size | Size => Where end, h) :: skipn (2 * m + 2) (writes f hs))%list.
Proof.
  revert m. induction hs as [|x r IH]; intros [|m] E; cbn in E; try discriminate.
  - inversion E; subst x. destruct f; cbn; auto.
  - specialize (IH m E). replace (2 * S m)%nat with (S (S (2 * m))) by lia.
    assert (K : forall n, skipn (S (S n)) (writes f (x :: r)) = skipn n (writes f r)) by (intros n; destruct f; reflexivity).
    cbn [Nat.add]. rewrite !K. exact IH.
Qed.

Section Run.
  Variables (f : word) (h0 : strhdr) (hs : list strhdr).
  Let n := List.length hs.
  Definition at_step (k : nat) (want : list word) (got : strhdr) : copying :=
    {| cy_set := header_at f h0 hs k; cy_write := skipn k (writes f hs); cy_read := want; cy_copy := got |}.
  Lemma command_step k want got : (k < 2 * n)%nat -> copy_step (at_step k want got) true = at_step (S k) want got.
  Proof.
    intros K. unfold copy_step, at_step. cbn [cy_write cy_set cy_read cy_copy].
    assert (exists m, k = 2 * m \/ k = 2 * m + 1)%nat as (m & M).
    { exists (k / 2)%nat. pose proof (Nat.div_mod k 2 ltac:(lia)). pose proof (Nat.mod_upper_bound k 2 ltac:(lia)). lia. }
    destruct (nth_error hs m) as [h|] eqn:E; [|apply nth_error_None in E; unfold n in K; lia].
    destruct (skip_pair f hs m h E) as [A B]. destruct (half_even m) as (X & Y & Z).
    assert (N : nth_hdr h0 hs (S m) = h) by (unfold nth_hdr; cbn [nth]; now apply nth_error_nth).
    destruct M as [->| ->].
    - rewrite A. replace (S (2 * m)) with (2 * m + 1)%nat by lia. f_equal.
      unfold header_at, place_at, length_at, put. replace (2 * m + 1 + 1)%nat with (2 * m + 2)%nat by lia.
      destruct f; cbn [sh_ptr sh_len]; rewrite ?X, ?Y, ?Z, ?N; reflexivity.
    - rewrite B. replace (S (2 * m + 1)) with (2 * m + 2)%nat by lia. f_equal.
      unfold header_at, place_at, length_at, put. replace (2 * m + 1 + 1)%nat with (2 * m + 2)%nat by lia.
      replace (2 * m + 2 + 1)%nat with (2 * S m + 1)%nat by lia. destruct (half_even (S m)) as (X' & Y' & Z').
      destruct f; cbn [sh_ptr sh_len]; rewrite ?X, ?Y, ?Z, ?Y', ?N; reflexivity.
  Qed.
  Lemma command_end want got : copy_step (at_step (2 * n) want got) true = at_step (2 * n) want got.
  Proof. unfold copy_step, at_step. cbn [cy_write]. rewrite skipn_all2; [reflexivity|]. rewrite writes_length. unfold n. lia. Qed.
  Lemma commands k d want got : (k + d <= 2 * n)%nat -> copy_run (repeat true d) (at_step k want got) = at_step (k + d) want got.
  Proof.
    revert k. induction d as [|d IH]; intros k L; [now rewrite Nat.add_0_r|].
    cbn [repeat]. change (copy_run (true :: repeat true d) (at_step k want got)) with (copy_run (repeat true d) (copy_step (at_step k want got) true)).
    rewrite command_step by lia. rewrite IH by lia. f_equal. lia.
  Qed.
  (** Where a run can be *)
  Inductive seen (first : word) (s : copying) : Prop :=
  | Seen0 k got : (k <= 2 * n)%nat -> s = at_step k (both first) got -> seen first s
  | Seen1 k1 k got : (k1 <= k <= 2 * n)%nat -> s = at_step k (tl (both first)) (put first (header_at f h0 hs k1) got) -> seen first s
  | Seen2 k1 k2 k got : (k1 <= k2 <= k)%nat -> (k <= 2 * n)%nat ->
      s = at_step k [] (put (match first with Where => Size | Size => Where end) (header_at f h0 hs k2) (put first (header_at f h0 hs k1) got)) -> seen first s.
  Lemma seen_step first s b : seen first s -> seen first (copy_step s b).
  Proof.
    assert (W : forall k want got, (k <= 2 * n)%nat -> exists k', (k <= k' <= 2 * n)%nat /\ copy_step (at_step k want got) true = at_step k' want got).
    { intros k want got L. destruct (Nat.eq_dec k (2 * n)) as [->|NE].
      - exists (2 * n)%nat. split; [lia|apply command_end].
      - exists (S k). split; [lia|apply command_step; lia]. }
    intros [k got L ->|k1 k got L ->|k1 k2 k got L L' ->]; destruct b.
    - destruct (W k (both first) got L) as (k' & L' & ->). now apply (Seen0 _ _ k' got).
    - apply (Seen1 _ _ k k got); [lia|]. destruct first; reflexivity.
    - destruct (W k (tl (both first)) (put first (header_at f h0 hs k1) got)) as (k' & L' & ->); [lia|]. apply (Seen1 _ _ k1 k' got); [lia|reflexivity].
    - apply (Seen2 _ _ k1 k k got); [lia|lia|]. destruct first; reflexivity.
    - match goal with |- context [at_step k [] ?g] => destruct (W k [] g L') as (k' & L2 & ->) end. apply (Seen2 _ _ k1 k2 k' got); [lia|lia|reflexivity].
    - apply (Seen2 _ _ k1 k2 k got); [lia|lia|reflexivity].
  Qed.
  Lemma seen_run first sched s : seen first s -> seen first (copy_run sched s).
  Proof. revert s. induction sched as [|b r IH]; intros s H; [exact H|]. apply IH. now apply seen_step. Qed.

  Lemma div2_le a b : (a <= b -> a / 2 <= b / 2)%nat.
  Proof. intros L. apply Nat.div_le_mono; lia. Qed.
  Lemma copies first z r :
    (exists sched, let s := copy_run sched (at_step 0 (both first) z) in cy_read s = [] /\ cy_copy s = r) <->
    (exists i j, (i <= n)%nat /\ (j <= n)%nat /\ together f first i j /\ r = {| sh_ptr := sh_ptr (nth_hdr h0 hs i); sh_len := sh_len (nth_hdr h0 hs j) |}).
  Proof.
    split.
    - intros (sched & A & B). pose proof (seen_run first sched _ (Seen0 first _ 0%nat z ltac:(lia) eq_refl)) as S. cbn zeta in A, B.
      destruct S as [k got L E|k1 k got L E|k1 k2 k got L L' E]; rewrite E in A, B; cbn [cy_read cy_copy at_step] in A, B; try (destruct first; discriminate A).
      subst r.
      assert (Q : forall x, (x <= 2 * n -> x / 2 <= n /\ (x + 1) / 2 <= n)%nat).
      { intros x X. split; apply Nat.lt_succ_r, Nat.div_lt_upper_bound; lia. }
      pose proof (Q k1 ltac:(lia)) as Q1. pose proof (Q k2 ltac:(lia)) as Q2. pose proof (div2_le k1 k2 ltac:(lia)) as D1. pose proof (div2_le (k1 + 1) (k2 + 1) ltac:(lia)) as D2.
      assert (D3 : (forall x, x / 2 <= (x + 1) / 2 <= S (x / 2))%nat).
      { intros x. split; [apply div2_le; lia|]. replace (S (x / 2)) with ((x + 1 * 2) / 2)%nat by (rewrite Nat.div_add by lia; lia). apply div2_le. lia. }
      pose proof (D3 k1) as D4. pose proof (D3 k2) as D5.
      destruct first.
      + exists (place_at f k1), (length_at f k2). destruct f; cbn [place_at length_at together put header_at sh_ptr sh_len]; repeat split; try lia.
      + exists (place_at f k2), (length_at f k1). destruct f; cbn [place_at length_at together put header_at sh_ptr sh_len]; repeat split; try lia.
    - intros (i & j & I & J & T & ->).
      assert (GO : forall k1 k2, (k1 <= k2 <= 2 * n)%nat -> exists sched, let s := copy_run sched (at_step 0 (both first) z) in
        cy_read s = [] /\ cy_copy s = put (match first with Where => Size | Size => Where end) (header_at f h0 hs k2) (put first (header_at f h0 hs k1) z)).
      { intros k1 k2 L. exists (repeat true k1 ++ [false] ++ repeat true (k2 - k1) ++ [false])%list. cbn zeta. unfold copy_run. rewrite !fold_left_app.
        fold (copy_run (repeat true k1) (at_step 0 (both first) z)). rewrite commands by lia. cbn [fold_left Nat.add].
        assert (E : copy_step (at_step k1 (both first) z) false = at_step k1 (tl (both first)) (put first (header_at f h0 hs k1) z)) by (destruct first; reflexivity).
        rewrite E. match goal with |- context [fold_left copy_step (repeat true ?d) ?s] => fold (copy_run (repeat true d) s) end.
        rewrite commands by lia. replace (k1 + (k2 - k1))%nat with k2 by lia. destruct first; cbn; auto. }
      destruct (half_even i) as (I1 & I2 & I3), (half_even j) as (J1 & J2 & J3).
      assert (DI : ((2 * i - 1 + 1) / 2 = i)%nat) by (destruct i; [reflexivity|replace (2 * S i - 1 + 1)%nat with (2 * S i)%nat by lia; exact I1]).
      assert (DJ : ((2 * j - 1 + 1) / 2 = j)%nat) by (destruct j; [reflexivity|replace (2 * S j - 1 + 1)%nat with (2 * S j)%nat by lia; exact J1]).
      destruct f, first; cbn [together] in T.
      + destruct (GO (2 * i - 1)%nat (if j =? n then 2 * n else 2 * j + 1)%nat) as (sched & A & B); [destruct (Nat.eqb_spec j n); lia|].
        exists sched. cbn zeta. rewrite B. split; [exact A|]. cbn [put header_at place_at length_at sh_ptr sh_len]. rewrite DI.
        destruct (Nat.eqb_spec j n) as [->|]; [rewrite J1|rewrite J2]; reflexivity.
      + destruct (GO (2 * j)%nat (2 * i)%nat) as (sched & A & B); [lia|].
        exists sched. cbn zeta. rewrite B. split; [exact A|]. cbn [put header_at place_at length_at sh_ptr sh_len]. now rewrite J1, I2.
      + destruct (GO (2 * i)%nat (2 * j)%nat) as (sched & A & B); [lia|].
        exists sched. cbn zeta. rewrite B. split; [exact A|]. cbn [put header_at place_at length_at sh_ptr sh_len]. now rewrite I1, J2.
      + destruct (GO (2 * j - 1)%nat (if i =? n then 2 * n else 2 * i + 1)%nat) as (sched & A & B); [destruct (Nat.eqb_spec i n); lia|].
        exists sched. cbn zeta. rewrite B. split; [exact A|]. cbn [put header_at place_at length_at sh_ptr sh_len]. rewrite DJ.
        destruct (Nat.eqb_spec i n) as [->|]; [rewrite I1|rewrite I2]; reflexivity.
  Qed.
End Run.
