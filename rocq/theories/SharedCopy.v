(** * Facts about the copying of settings while they change *)

From Coq Require Import Lia Permutation.
From Verif Require Import GoBase GoFacts Flags SpecFlags FlagsFacts Config Shipped Data SpecFrames Beacon Transfer Words SpecWords Cli SpecCli Shared SpecShared SharedFacts.
Local Open Scope string_scope.
Local Open Scope N_scope.

(** ** The keys of Global stay *)
Definition has (f : string) (c : cliflags) : Prop := lookup f (cl_global c) <> None.
Lemma has_set_global : forall f c k v, has f c -> has f (set_global c k v).
Proof.
  intros f c k v H. unfold has in *. cbn. destruct (String.eqb_spec f k) as [->|N]; [rewrite update_lookup_same; discriminate|].
  now rewrite update_lookup_other by congruence.
Qed.
Lemma step_has : forall jobs c0 s ord i s' f, inv jobs c0 s ord -> rstep s i = Some s' -> has f (rs_set s) -> has f (rs_set s').
Proof.
  intros jobs c0 s ord i s' f I H F. unfold rstep in H. destruct (rs_dead s); [discriminate|].
  destruct (nth_error (rs_work s) i) as [[[|a r] d]|] eqn:W; try discriminate.
  destruct (nth_error_lt _ jobs i _ (i_len _ _ _ _ I) W) as (j & J).
  destruct (i_suffix _ _ _ _ I i j _ J W) as (p & P). cbn [wk_todo] in P.
  destruct a; repeat match type of H with context [match ?x with _ => _ end] => destruct x end; try discriminate; inversion H; subst s'; cbn [rs_set]; try exact F.
  - apply has_set_global. exact F.
  - assert (X : In (ASet f0) (program j)) by (rewrite P; apply in_app_iff; right; left; reflexivity).
    destruct (is_transfer j) eqn:T.
    + destruct j; try discriminate. cbn [program body] in X. apply in_app_iff in X. destruct X as [X|X].
      * unfold take_members in X. cbn in X. repeat (destruct X as [X|X]; [discriminate|]). destruct X.
      * unfold take_global in X. destruct X as [X|X]; [discriminate|]. apply in_app_iff in X. destruct X as [X|[X|[]]]; [|discriminate].
        apply in_flat_map in X. destruct X as (k & _ & [X|[X|[]]]); discriminate.
    + destruct (in_body_setting j _ T X) as [Y|[Y|Y]]; try discriminate. unfold has. rewrite (proj2 (body_acts j _ T Y) f0 eq_refl). exact F.
Qed.
Lemma run_has : forall jobs c0 is s ord f, inv jobs c0 s ord -> rs_dead s = false -> has f (rs_set s) -> has f (rs_set (rrun s is)).
Proof.
  intros jobs c0. induction is as [|i is IH]; intros s ord f I D F; [exact F|]. cbn [rrun]. destruct (rstep s i) as [s'|] eqn:R; [|eapply IH; eauto].
  pose proof (step_has _ _ _ _ _ _ _ I R F) as F'. destruct (step_inv _ _ _ _ _ _ I D R) as [[D' _]|[D' I']]; [rewrite rrun_dead by exact D'; exact F'|eapply IH; eauto].
Qed.

(** ** A copy is made of what was there when each member was taken *)
Definition take1 (a : act) (c d : cliflags) : cliflags :=
  match a with ATake f => f c d | ATakeGlobal k => set_global d k (global c k) | _ => d end.
Fixpoint take_all (t : list act) (cs : list cliflags) (d : cliflags) : cliflags :=
  match t, cs with
  | a :: t, c :: cs => take_all t cs (take1 a c d)
  | _, _ => d
  end.
Lemma moment_later : forall s i is c, at_some_moment (match rstep s i with Some s' => s' | None => s end) is c -> at_some_moment s (i :: is) c.
Proof. intros s i is c (b & l & -> & H). exists (i :: b), l. split; [reflexivity|exact H]. Qed.
Lemma copy_moments : forall is s i t d d', nth_error (rs_work s) i = Some {| wk_todo := t; wk_copy := d |} ->
  rs_dead (rrun s is) = false -> finished_with (rrun s is) i d' ->
  exists cs, List.length cs = List.length t /\ Forall (at_some_moment s is) cs /\ d' = take_all t cs d.
Proof.
  induction is as [|x is IH]; intros s i t d d' W D F.
  - cbn in F. unfold finished_with in F. rewrite W in F. inversion F; subst. exists []. repeat split; constructor.
  - cbn [rrun] in D, F. pose proof (moment_later s x is) as ML. destruct (rstep s x) as [s'|] eqn:R.
    2:{ destruct (IH _ _ _ _ _ W D F) as (cs & L & M & E). exists cs. repeat split; auto. eapply Forall_impl; [|exact M]. intros c Hc. now apply ML. }
    assert (AL : rs_dead s' = false) by (destruct (rs_dead s') eqn:X; [rewrite rrun_dead in D by exact X; congruence|reflexivity]).
    unfold rstep in R. destruct (rs_dead s) eqn:DS; [discriminate|].
    destruct (nth_error (rs_work s) x) as [[[|a r] dd]|] eqn:WX; try discriminate.
    assert (S : exists c l b, s' = {| rs_set := c; rs_lock := l; rs_busy := b; rs_dead := false;
        rs_work := set_worker (rs_work s) x {| wk_todo := r; wk_copy := take1 a (rs_set s) dd |} |}).
    { destruct a; repeat match type of R with context [match ?y with _ => _ end] => destruct y end; try discriminate; inversion R; subst s';
        try (cbn in AL; discriminate); eexists _, _, _; reflexivity. }
    destruct S as (c & l & b & ->). destruct (Nat.eq_dec x i) as [->|N].
    + rewrite W in WX. inversion WX; subst t dd.
      assert (W' : nth_error (set_worker (rs_work s) i {| wk_todo := r; wk_copy := take1 a (rs_set s) d |}) i = Some {| wk_todo := r; wk_copy := take1 a (rs_set s) d |})
        by (eapply set_worker_same; eauto).
      destruct (IH {| rs_set := c; rs_lock := l; rs_busy := b; rs_dead := false; rs_work := set_worker (rs_work s) i {| wk_todo := r; wk_copy := take1 a (rs_set s) d |} |}
        i _ _ _ W' D F) as (cs & L & M & E).
      exists (rs_set s :: cs). split; [cbn; now rewrite L|]. split; [|exact E]. constructor.
      * exists [], (i :: is). split; reflexivity.
      * eapply Forall_impl; [|exact M]. intros c' Hc. apply ML. exact Hc.
    + assert (W' : nth_error (set_worker (rs_work s) x {| wk_todo := r; wk_copy := take1 a (rs_set s) dd |}) i = Some {| wk_todo := t; wk_copy := d |})
        by (rewrite set_worker_other by exact N; exact W).
      destruct (IH {| rs_set := c; rs_lock := l; rs_busy := b; rs_dead := false; rs_work := set_worker (rs_work s) x {| wk_todo := r; wk_copy := take1 a (rs_set s) dd |} |}
        i _ _ _ W' D F) as (cs & L & M & E).
      exists cs. split; [exact L|]. split; [|exact E]. eapply Forall_impl; [|exact M]. intros c' Hc. apply ML. exact Hc.
Qed.

Definition with_global (d : cliflags) (g : list (string * string)) : cliflags :=
  {| cl_global := g; cl_v4 := cl_v4 d; cl_v6 := cl_v6 d; cl_port := cl_port d;
     cl_timestamp := cl_timestamp d; cl_timeout := cl_timeout d; cl_timezone := cl_timezone d; cl_prompt := cl_prompt d;
     cl_ppad := cl_ppad d; cl_sardir := cl_sardir d; cl_buffersize := cl_buffersize d; cl_bcount := cl_bcount d |}.
Lemma take_keys : forall order cs d, List.length cs = List.length (flat_map (fun k => [ALook; ATakeGlobal k]) order ++ [ALook])%list -> NoDup order ->
  exists g, take_all (flat_map (fun k => [ALook; ATakeGlobal k]) order ++ [ALook]) cs d = with_global d g /\
    (forall k, In k order -> exists c, In c cs /\ lookup k g = Some (global c k)) /\
    (forall k, ~ In k order -> lookup k g = lookup k (cl_global d)).
Proof.
  induction order as [|k order IH]; intros cs d L ND.
  - exists (cl_global d). cbn in L. destruct cs as [|c [|]]; try discriminate. cbn. split; [destruct d; reflexivity|]. split; [intros k []|reflexivity].
  - cbn in L. destruct cs as [|c1 [|c2 cs]]; try discriminate. inversion ND; subst.
    destruct (IH cs (set_global d k (global c2 k))) as (g & E & A & B); [cbn in L; lia|assumption|].
    exists g. split; [exact E|]. split.
    + intros k' [<-|X].
      * exists c2. split; [right; left; reflexivity|]. rewrite B by assumption. cbn. apply update_lookup_same.
      * destruct (A k' X) as (c & C1 & C2). exists c. split; [right; right; exact C1|exact C2].
    + intros k' X. rewrite B by (intros Y; apply X; right; exact Y). cbn. apply update_lookup_other. intros ->. apply X. left; reflexivity.
Qed.

(** ** Schedules in which one goroutine runs alone *)
Definition takes (a : act) : bool := match a with ATake _ | ALook | ATakeGlobal _ | ANonempty => true | _ => false end.
Fixpoint take_by (t : list act) (c d : cliflags) : cliflags := match t with [] => d | a :: t => take_by t c (take1 a c d) end.
Definition with_worker (s : rstate) (i : nat) (w : worker) : rstate :=
  {| rs_set := rs_set s; rs_lock := rs_lock s; rs_busy := rs_busy s; rs_dead := rs_dead s; rs_work := set_worker (rs_work s) i w |}.
Lemma set_worker_twice : forall l i a b, set_worker (set_worker l i a) i b = set_worker l i b.
Proof. induction l as [|x l IH]; intros [|i] a b; cbn; [reflexivity..|]. now rewrite IH. Qed.
Lemma set_worker_id : forall l i a, nth_error l i = Some a -> set_worker l i a = l.
Proof. induction l as [|x l IH]; intros [|i] a H; cbn in *; try discriminate; [congruence|]. now rewrite IH. Qed.
Lemma alone_takes : forall t r s i d, forallb takes t = true -> rs_dead s = false -> rs_busy s = false -> cl_global (rs_set s) <> [] ->
  nth_error (rs_work s) i = Some {| wk_todo := (t ++ r)%list; wk_copy := d |} ->
  rrun s (repeat i (List.length t)) = with_worker s i {| wk_todo := r; wk_copy := take_by t (rs_set s) d |}.
Proof.
  induction t as [|a t IH]; intros r s i d T D B G W.
  - cbn. unfold with_worker. rewrite set_worker_id by exact W. destruct s; cbn in *; now subst.
  - cbn [List.length repeat rrun forallb] in *. rewrite andb_true_iff in T. destruct T as [Ta T].
    assert (R : rstep s i = Some (with_worker s i {| wk_todo := (t ++ r)%list; wk_copy := take1 a (rs_set s) d |})).
    { unfold rstep. rewrite D, W. cbn [app]. unfold with_worker. rewrite D. destruct a; try discriminate; cbn [take1]; try rewrite B; try reflexivity.
      destruct (cl_global (rs_set s)); [congruence|reflexivity]. }
    rewrite R. rewrite (IH r _ i (take1 a (rs_set s) d)); auto.
    + unfold with_worker. cbn. now rewrite set_worker_twice.
    + cbn. eapply set_worker_same; eauto.
Qed.
Lemma moment_takes : forall n t s i d c, forallb takes t = true -> rs_dead s = false -> rs_busy s = false -> cl_global (rs_set s) <> [] ->
  nth_error (rs_work s) i = Some {| wk_todo := t; wk_copy := d |} -> at_some_moment s (repeat i n) c -> c = rs_set s.
Proof.
  induction n as [|n IH]; intros t s i d c T D B G W (b & l & E & <-).
  - cbn in E. symmetry in E. apply app_eq_nil in E. destruct E as [-> _]. reflexivity.
  - destruct b as [|x b]; [reflexivity|]. cbn [repeat app] in E. inversion E; subst x. clear E. cbn [rrun].
    destruct t as [|a t].
    { assert (R : rstep s i = None) by (unfold rstep; now rewrite D, W). rewrite R. eapply (IH [] s i d); [exact T|exact D|exact B|exact G|exact W|]. exists b, l. split; [assumption|reflexivity]. }
    cbn [forallb] in T. rewrite andb_true_iff in T. destruct T as [Ta T].
    assert (R : rstep s i = Some (with_worker s i {| wk_todo := t; wk_copy := take1 a (rs_set s) d |})).
    { unfold rstep. rewrite D, W. unfold with_worker. rewrite D. destruct a; try discriminate; cbn [take1]; try rewrite B; try reflexivity.
      destruct (cl_global (rs_set s)); [congruence|reflexivity]. }
    rewrite R. rewrite (IH t (with_worker s i {| wk_todo := t; wk_copy := take1 a (rs_set s) d |}) i (take1 a (rs_set s) d) (rs_set (rrun (with_worker s i {| wk_todo := t; wk_copy := take1 a (rs_set s) d |}) b))); auto.
    + cbn. eapply set_worker_same; eauto.
    + exists b, l. split; [assumption|reflexivity].
Qed.
Definition after_alone (s : rstate) (i : nat) (c : cliflags) (d : cliflags) : rstate :=
  {| rs_set := c; rs_lock := None; rs_busy := false; rs_dead := false; rs_work := set_worker (rs_work s) i {| wk_todo := []; wk_copy := d |} |}.
Lemma alone_body : forall n b s i d, (List.length b <= n)%nat -> okb b = true -> rs_dead s = false -> rs_busy s = false -> rs_lock s = Some i ->
  nth_error (rs_work s) i = Some {| wk_todo := (b ++ [AUnlock])%list; wk_copy := d |} ->
  rrun s (repeat i (S (List.length b))) = after_alone s i (effect b (rs_set s)) d.
Proof.
  induction n as [|n IH]; intros b s i d L K D B LK W.
  - destruct b; [|cbn in L; lia]. cbn. unfold rstep. rewrite D, W. cbn. unfold after_alone. now rewrite B.
  - destruct b as [|a b]; [cbn; unfold rstep; rewrite D, W; cbn; unfold after_alone; now rewrite B|].
    cbn [List.length] in L. destruct a; cbn in K; try discriminate.
    + destruct b as [|y b]; [discriminate|]. destruct y; try discriminate. rewrite !andb_true_iff in K. destruct K as [_ K].
      cbn [List.length]. change (repeat i (S (S (S (List.length b))))) with (i :: i :: repeat i (S (List.length b))). cbn [rrun].
      unfold rstep at 2. rewrite D, W. cbn [app]. rewrite B. unfold rstep. cbn [rs_dead rs_work]. rewrite (set_worker_same _ _ _ _ W). cbn [rs_set rs_lock rs_busy].
      rewrite set_worker_twice, LK. rewrite (IH b _ i d); auto; [|cbn in L; lia|cbn; eapply set_worker_same; eauto].
      unfold after_alone. cbn. now rewrite set_worker_twice.
    + change (repeat i (S (List.length (ASet f :: b)))) with (i :: repeat i (S (List.length b))). cbn [rrun].
      unfold rstep. rewrite D, W. cbn [app]. rewrite (IH b _ i d); auto; [|lia|cbn; eapply set_worker_same; eauto].
      unfold after_alone. cbn. now rewrite set_worker_twice.
    + change (repeat i (S (List.length (ALook :: b)))) with (i :: repeat i (S (List.length b))). cbn [rrun].
      unfold rstep. rewrite D, W. cbn [app]. rewrite B. rewrite (IH b _ i d); auto; [|lia|cbn; eapply set_worker_same; eauto].
      unfold after_alone. cbn. now rewrite set_worker_twice.
Qed.
Lemma alone_job : forall j s i d, is_transfer j = false -> rs_dead s = false -> rs_busy s = false -> rs_lock s = None ->
  nth_error (rs_work s) i = Some {| wk_todo := program j; wk_copy := d |} ->
  rrun s (repeat i (List.length (program j))) = after_alone s i (after_job j (rs_set s)) d.
Proof.
  intros j s i d T D B L W.
  assert (P : program j = (ALock :: body j ++ [AUnlock])%list) by (destruct j; [reflexivity..|discriminate]).
  rewrite P in *. replace (List.length (ALock :: body j ++ [AUnlock])%list) with (S (S (List.length (body j)))) by (cbn; rewrite app_length; cbn; lia).
  change (repeat i (S (S (List.length (body j))))) with (i :: repeat i (S (List.length (body j)))). cbn [rrun].
  unfold rstep. rewrite D, W, L.
  rewrite (alone_body (List.length (body j)) (body j) _ i d); auto; [|apply okb_body; exact T|cbn; eapply set_worker_same; eauto].
  unfold after_alone. cbn. rewrite set_worker_twice. now rewrite body_effect.
Qed.
(** A goroutine that does not store a header flag leaves it alone *)
Lemma moment_frame : forall n t s i d c f, (forall v, ~ In (AStored f v) t) -> (forall g, In (ASet g) t -> forall c, cl_global (g c) = cl_global c) ->
  nth_error (rs_work s) i = Some {| wk_todo := t; wk_copy := d |} -> at_some_moment s (repeat i n) c -> lookup f (cl_global c) = lookup f (cl_global (rs_set s)).
Proof.
  induction n as [|n IH]; intros t s i d c f N1 N2 W (b & l & E & <-).
  - cbn in E. symmetry in E. apply app_eq_nil in E. destruct E as [-> _]. reflexivity.
  - destruct b as [|x b]; [reflexivity|]. cbn [repeat app] in E. inversion E; subst x. clear E. cbn [rrun].
    destruct (rstep s i) as [s'|] eqn:R.
    2:{ eapply IH; [exact N1|exact N2|exact W|]. exists b, l. split; [assumption|reflexivity]. }
    assert (X : lookup f (cl_global (rs_set s')) = lookup f (cl_global (rs_set s)) /\ exists t' d', (forall v, ~ In (AStored f v) t') /\
      (forall g, In (ASet g) t' -> forall c, cl_global (g c) = cl_global c) /\ nth_error (rs_work s') i = Some {| wk_todo := t'; wk_copy := d' |}).
    { unfold rstep in R. destruct (rs_dead s) eqn:DS; [discriminate|]. rewrite W in R. destruct t as [|a r]; [discriminate|].
      assert (Y : (forall v, ~ In (AStored f v) r) /\ (forall g, In (ASet g) r -> forall c, cl_global (g c) = cl_global c)).
      { split; [intros v Z; apply (N1 v); right; exact Z|intros g Z; apply N2; right; exact Z]. }
      destruct Y as [Y1 Y2].
      destruct a; repeat match type of R with context [match ?y with _ => _ end] => destruct y eqn:?Q end; try discriminate; inversion R; subst s'; cbn [rs_set rs_work];
        (split; [try reflexivity; try congruence|try (eexists _, _; split; [exact Y1|split; [exact Y2|eapply set_worker_same; eauto]]);
                 try (eexists _, _; split; [exact N1|split; [exact N2|exact W]])]).
      - cbn. apply update_lookup_other. intros ->. apply (N1 v). left. reflexivity.
      - f_equal. apply N2. left. reflexivity. }
    destruct X as (X & t' & d' & M1 & M2 & W'). rewrite <- X. eapply IH; [exact M1|exact M2|exact W'|]. exists b, l. split; [assumption|reflexivity].
Qed.
Lemma moment_app : forall s a b c, at_some_moment s (a ++ b) c -> at_some_moment s a c \/ at_some_moment (rrun s a) b c.
Proof.
  intros s a b c (x & y & E & H). destruct (Nat.le_gt_cases (List.length x) (List.length a)) as [L|L].
  - left. exists x, (skipn (List.length x) a). split; [|exact H].
    assert (X : firstn (List.length x) (a ++ b) = firstn (List.length x) (x ++ y)) by now rewrite E.
    rewrite !firstn_app, firstn_all, Nat.sub_diag in X. cbn in X. rewrite app_nil_r in X.
    replace (List.length x - List.length a)%nat with 0%nat in X by lia. cbn in X. rewrite app_nil_r in X. rewrite <- X at 1. symmetry. apply firstn_skipn.
  - right. assert (X : exists x2, x = (a ++ x2)%list /\ b = (x2 ++ y)%list).
    { clear H. revert x E L. induction a as [|h a IH]; intros x E L; [exists x; split; [reflexivity|exact E]|].
      destruct x as [|h' x]; [cbn in L; lia|]. cbn in E. inversion E; subst. destruct (IH x) as (x2 & -> & ->); [assumption|cbn in L; lia|]. exists x2. split; reflexivity. }
    destruct X as (x2 & -> & ->). exists x2, y. split; [reflexivity|]. now rewrite <- rrun_app.
Qed.
