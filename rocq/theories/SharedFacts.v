(** * Facts about the settings under concurrency *)

From Coq Require Import Lia Permutation.
From Verif Require Import GoBase GoFacts Flags SpecFlags FlagsFacts Config Shipped Data SpecFrames Beacon Transfer Words SpecWords Cli SpecCli Shared SpecShared.
Local Open Scope string_scope.
Local Open Scope N_scope.

Lemma set_worker_same : forall l i w x, nth_error l i = Some x -> nth_error (set_worker l i w) i = Some w.
Proof. induction l as [|y l IH]; intros [|i] w x H; cbn in *; try discriminate; [reflexivity|eapply IH; eauto]. Qed.
Lemma set_worker_other : forall l i j w, i <> j -> nth_error (set_worker l i w) j = nth_error l j.
Proof. induction l as [|y l IH]; intros [|i] [|j] w H; cbn; try reflexivity; try congruence. apply IH. congruence. Qed.
Lemma set_worker_length : forall l i w, List.length (set_worker l i w) = List.length l.
Proof. induction l as [|y l IH]; intros [|i] w; cbn; [reflexivity..|]. now rewrite IH. Qed.

Lemma rrun_app : forall is1 is2 s, rrun s (is1 ++ is2) = rrun (rrun s is1) is2.
Proof. induction is1 as [|i r IH]; intros is2 s; [reflexivity|]. cbn. apply IH. Qed.
Lemma rrun_dead : forall is s, rs_dead s = true -> rrun s is = s.
Proof. induction is as [|i r IH]; intros s H; [reflexivity|]. cbn. unfold rstep. rewrite H. now apply IH. Qed.
Lemma finishing_app : forall is1 is2 s, finishing s (is1 ++ is2) = (finishing s is1 ++ finishing (rrun s is1) is2)%list.
Proof.
  induction is1 as [|i r IH]; intros is2 s; [reflexivity|]. cbn. destruct (rstep s i) as [s'|]; [|apply IH].
  destruct (negb (finished s i) && finished s' i); cbn; now rewrite IH.
Qed.

(** ** Effects *)
Definition effect1 (a : act) (c : cliflags) : cliflags :=
  match a with AStored k v => set_global c k v | ASet f => f c | _ => c end.
Fixpoint effect (l : list act) (c : cliflags) : cliflags :=
  match l with [] => c | a :: r => effect r (effect1 a c) end.
Lemma effect_app : forall a b c, effect (a ++ b) c = effect b (effect a c).
Proof. induction a as [|x a IH]; intros b c; [reflexivity|]. cbn. apply IH. Qed.

(** A body between Lock and Unlock *)
Fixpoint okb (l : list act) : bool :=
  match l with
  | [] => true
  | AStore k v :: AStored k' v' :: r => String.eqb k k' && String.eqb v v' && okb r
  | ASet _ :: r => okb r
  | ALook :: r => okb r
  | _ => false
  end.
Lemma okb_app : forall n a b, (List.length a <= n)%nat -> okb a = true -> okb b = true -> okb (a ++ b) = true.
Proof.
  induction n as [|n IH]; intros a b L A B; destruct a as [|x a]; cbn [List.length] in L; try lia; try exact B.
  destruct x; cbn in A |- *; try discriminate.
  - destruct a as [|y a]; [discriminate|]. destruct y; try discriminate. cbn in A |- *. rewrite !andb_true_iff in *. destruct A as [A C]. split; [exact A|].
    apply IH; auto. cbn in L. lia.
  - apply IH; auto. lia.
  - apply IH; auto. lia.
Qed.
Lemma okb_stored_by : forall k a cases, okb (stored_by k a cases) = true.
Proof. induction cases as [|[b v] r IH]; cbn; [reflexivity|]. destruct (String.eqb a b); [|exact IH]. cbn. now rewrite !String.eqb_refl. Qed.
Lemma okb_repeat : forall n, okb (repeat ALook n) = true.
Proof. induction n; [reflexivity|]. exact IHn. Qed.

Ltac args_cases args :=
  destruct args as [|?x args]; [|destruct args as [|?x args]; [|destruct args as [|?x args]; [|destruct args as [|?x args]]]].
Lemma okb_body : forall j, is_transfer j = false -> okb (body j) = true.
Proof.
  intros [ws|n|o] T; [|apply okb_repeat|discriminate]. cbn [body]. destruct ws as [|name ws]; [reflexivity|].
  unfold accesses. cbn [lookup].
  repeat match goal with |- context [if String.eqb name ?b then _ else _] => destruct (String.eqb name b) end; [..|reflexivity].
  - unfold acc_bcount. args_cases ws; try reflexivity. destruct (atoi x); [|reflexivity]. destruct (0 <=? z)%Z; reflexivity.
  - unfold acc_checksum. args_cases ws; try reflexivity. destruct (one_of _ _); [|reflexivity].
    eapply okb_app; [reflexivity|apply okb_stored_by|reflexivity].
  - unfold acc_descriptor. args_cases ws; try reflexivity. destruct (String.eqb _ _); [reflexivity|].
    eapply okb_app; [reflexivity|apply okb_stored_by|reflexivity].
  - unfold acc_flag. args_cases ws; try reflexivity. apply okb_stored_by.
  - unfold acc_interval. args_cases ws; try reflexivity. destruct (String.eqb _ _); [reflexivity|]. destruct (atoi x); [|reflexivity]. destruct (0 <=? z)%Z; reflexivity.
  - unfold acc_flag. args_cases ws; try reflexivity. apply okb_stored_by.
  - unfold acc_flag. args_cases ws; try reflexivity. apply okb_stored_by.
  - unfold acc_flag. args_cases ws; try reflexivity. apply okb_stored_by.
  - assert (P : forall nm n, okb (put_timer nm n) = true) by (intros; unfold put_timer; repeat destruct (String.eqb _ _); reflexivity).
    unfold acc_timeout. args_cases ws; try reflexivity.
    + destruct (String.eqb _ _); reflexivity.
    + destruct (atoi x0) as [z|]; [destruct (0 <=? z)%Z|]; [apply P| |]; (destruct (String.eqb x0 "off"); [apply P|reflexivity]).
  - unfold acc_timestamp. args_cases ws; try reflexivity. repeat destruct (String.eqb _ _); reflexivity.
  - unfold acc_timezone. args_cases ws; try reflexivity. destruct (one_of _ _); reflexivity.
  - unfold acc_flag. args_cases ws; try reflexivity. apply okb_stored_by.
Qed.

(** The accesses of a command amount to the command *)
Ltac eqb_cases x :=
  repeat match goal with |- context [String.eqb x ?b] => destruct (String.eqb_spec x b) as [->|?]; [try reflexivity|] end.
Lemma put_timer_effect : forall nm n c,
  effect (put_timer nm n) c =
    (if String.eqb nm "metadata" then set_timeout c (with_metadata (cl_timeout c) n)
     else if String.eqb nm "request" then set_timeout c (with_request (cl_timeout c) n)
     else if String.eqb nm "status" then set_timeout c (with_status (cl_timeout c) n)
     else if String.eqb nm "datacounter" then set_timeout c (with_datacounter (cl_timeout c) n)
     else if String.eqb nm "transfer" then set_timeout c (with_transfer (cl_timeout c) n) else c).
Proof. intros. unfold put_timer. repeat destruct (String.eqb _ _); reflexivity. Qed.
Lemma body_effect : forall j c, is_transfer j = false -> effect (body j) c = after_job j c.
Proof.
  intros [ws|n|o] c T; [| |discriminate].
  2:{ cbn [body after_job]. clear T. induction n; [reflexivity|]. exact IHn. }
  cbn [body after_job]. unfold after_command. destruct ws as [|name ws]; [reflexivity|].
  unfold accesses, setting_commands. cbn [lookup].
  repeat match goal with |- context [if String.eqb name ?b then _ else _] => destruct (String.eqb name b) end; [..|reflexivity].
  - unfold acc_bcount, cmd_bcount. args_cases ws; try reflexivity. destruct (String.eqb_spec x "?") as [->|]; [reflexivity|].
    destruct (atoi x); [|reflexivity]. destruct (0 <=? z)%Z; reflexivity.
  - unfold acc_checksum, cmd_checksum. args_cases ws; try reflexivity. unfold one_of. cbn [existsb stored_by].
    eqb_cases x. reflexivity.
  - unfold acc_descriptor, cmd_descriptor. args_cases ws; try reflexivity. cbn [stored_by]. eqb_cases x. reflexivity.
  - unfold acc_flag, cmd_freespace. args_cases ws; try reflexivity. cbn [stored_by]. eqb_cases x. reflexivity.
  - unfold acc_interval, cmd_interval. args_cases ws; try reflexivity. destruct (String.eqb_spec x "?") as [->|]; [reflexivity|].
    destruct (String.eqb x "off"); [reflexivity|]. destruct (atoi x); [|reflexivity]. destruct (0 <=? z)%Z; reflexivity.
  - unfold acc_flag, cmd_reqtstamp. args_cases ws; try reflexivity. cbn [stored_by]. eqb_cases x. reflexivity.
  - unfold acc_flag, cmd_rxwilling. args_cases ws; try reflexivity. cbn [stored_by]. eqb_cases x. reflexivity.
  - unfold acc_flag, cmd_stream. args_cases ws; try reflexivity. cbn [stored_by]. eqb_cases x. reflexivity.
  - unfold acc_timeout, cmd_timeout. args_cases ws; try reflexivity.
    + eqb_cases x; try reflexivity. cbn. destruct (to_datacounter (cl_timeout c) =? 0)%Z; reflexivity.
    + destruct (match atoi x0 with Some n => if (0 <=? n)%Z then Some n else None | None => None end) as [n|].
      * rewrite put_timer_effect. destruct (String.eqb_spec x "datacounter") as [->|N]; cbn [andb].
        -- cbn [String.eqb Ascii.eqb Bool.eqb]. destruct (n =? 0)%Z; reflexivity.
        -- repeat destruct (String.eqb _ _); reflexivity.
      * destruct (String.eqb x0 "off"); [|reflexivity]. rewrite put_timer_effect.
        eqb_cases x; reflexivity.
  - unfold acc_timestamp, cmd_timestamp. args_cases ws; try reflexivity. eqb_cases x; reflexivity.
  - unfold acc_timezone, cmd_timezone. args_cases ws; try reflexivity. unfold one_of. cbn [existsb]. eqb_cases x; reflexivity.
  - unfold acc_flag, cmd_txwilling. args_cases ws; try reflexivity. cbn [stored_by]. eqb_cases x. reflexivity.
Qed.

Lemma one_by_one_snoc : forall jobs is i c,
  one_by_one jobs (is ++ [i]) c = match nth_error jobs i with Some j => after_job j (one_by_one jobs is c) | None => one_by_one jobs is c end.
Proof. intros jobs. induction is as [|x is IH]; intros i c; [reflexivity|]. cbn. apply IH. Qed.

(** ** The invariant *)
Definition holder (jobs : list job) (c0 : cliflags) (s : rstate) (ord : list nat) (i : nat) : Prop :=
  exists j d r, nth_error jobs i = Some j /\ is_transfer j = false /\ nth_error (rs_work s) i = Some {| wk_todo := (r ++ [AUnlock])%list; wk_copy := d |} /\
    ~ In i ord /\ effect r (rs_set s) = effect (body j) (one_by_one jobs ord c0) /\
    ((rs_busy s = false /\ okb r = true) \/ (rs_busy s = true /\ exists k v r', r = AStored k v :: r' /\ okb r' = true)).
Record inv (jobs : list job) (c0 : cliflags) (s : rstate) (ord : list nat) : Prop := {
  i_len : List.length (rs_work s) = List.length jobs;
  i_suffix : forall i j w, nth_error jobs i = Some j -> nth_error (rs_work s) i = Some w -> exists p, program j = (p ++ wk_todo w)%list;
  i_wait : forall i j w, nth_error jobs i = Some j -> is_transfer j = false -> rs_lock s <> Some i -> nth_error (rs_work s) i = Some w ->
    (wk_todo w = program j /\ ~ In i ord) \/ (wk_todo w = [] /\ In i ord);
  i_lock : match rs_lock s with
           | None => rs_busy s = false /\ rs_set s = one_by_one jobs ord c0
           | Some i => holder jobs c0 s ord i
           end;
  i_ord : NoDup ord /\ forall i, In i ord -> finished s i = true
}.

Lemma begin_inv : forall c jobs, inv jobs c (begin c jobs) [].
Proof.
  intros c jobs. constructor; cbn.
  - apply map_length.
  - intros i j w J W. rewrite nth_error_map, J in W. cbn in W. inversion W; subst. exists []. reflexivity.
  - intros i j w J T L W. rewrite nth_error_map, J in W. cbn in W. inversion W; subst. left. split; [reflexivity|auto].
  - split; reflexivity.
  - split; [constructor|]. intros i [].
Qed.

Lemma nth_error_lt : forall {A B} (l : list A) (m : list B) i x, List.length l = List.length m -> nth_error l i = Some x -> exists y, nth_error m i = Some y.
Proof.
  intros A B l m i x L H. destruct (nth_error m i) as [y|] eqn:E; [eauto|]. exfalso. apply nth_error_None in E.
  assert (i < List.length l)%nat by (apply nth_error_Some; congruence). lia.
Qed.

Definition fresh_done (s s' : rstate) (i : nat) : list nat := if negb (finished s i) && finished s' i then [i] else [].
(** What is found when the program dies *)
Definition collision (jobs : list job) (s : rstate) (i : nat) : Prop :=
  exists o, nth_error jobs i = Some (JTransfer o) /\
    (cl_global (rs_set s) = [] \/ exists h j k v, nth_error jobs h = Some j /\ is_transfer j = false /\ In (AStored k v) (body j)).

Lemma finished_set : forall s i w c l b x, nth_error (rs_work s) i = Some x ->
  finished {| rs_set := c; rs_lock := l; rs_busy := b; rs_dead := false; rs_work := set_worker (rs_work s) i w |} i = match wk_todo w with [] => true | _ => false end.
Proof. intros s i w c l b x H. unfold finished. cbn [rs_work]. rewrite (set_worker_same _ _ _ _ H). destruct w as [[|a t] d]; reflexivity. Qed.

Lemma in_body_setting : forall j a, is_transfer j = false -> In a (program j) -> a = ALock \/ a = AUnlock \/ In a (body j).
Proof. intros j a T H. destruct j; try discriminate; cbn [program] in H; destruct H as [H|H]; auto; apply in_app_iff in H; destruct H as [H|[H|[]]]; auto. Qed.

(** Other goroutines keep what is said of them when goroutine [i] moves *)
Lemma step_inv : forall jobs c0 s ord i s', inv jobs c0 s ord -> rs_dead s = false -> rstep s i = Some s' ->
  (rs_dead s' = true /\ collision jobs s i) \/ (rs_dead s' = false /\ inv jobs c0 s' (ord ++ fresh_done s s' i)).
Proof.
  intros jobs c0 s ord i s' I D H. unfold rstep in H. rewrite D in H.
  destruct (nth_error (rs_work s) i) as [[[|a r] d]|] eqn:W; try discriminate.
  destruct (nth_error_lt _ jobs i _ (i_len _ _ _ _ I) W) as (j & J).
  assert (NF : finished s i = false) by (unfold finished; rewrite W; reflexivity).
  destruct (i_suffix _ _ _ _ I i j _ J W) as (p & P). cbn [wk_todo] in P.
  assert (NI : ~ In i ord) by (intros X; apply (proj2 (i_ord _ _ _ _ I)) in X; congruence).
  (* the common part of a step that does not die *)
  assert (KEEP : forall c l b d',
    let s1 := {| rs_set := c; rs_lock := l; rs_busy := b; rs_dead := false; rs_work := set_worker (rs_work s) i {| wk_todo := r; wk_copy := d' |} |} in
    (forall h, h <> i -> rs_lock s <> Some h -> l <> Some h) -> (forall h, h <> i -> rs_lock s = Some h -> l = Some h) ->
    (is_transfer j = false -> l = Some i \/ (r = [] /\ l = None)) ->
    match l with
    | None => b = false /\ c = one_by_one jobs (ord ++ fresh_done s s1 i) c0
    | Some h => holder jobs c0 s1 (ord ++ fresh_done s s1 i) h
    end -> inv jobs c0 s1 (ord ++ fresh_done s s1 i)).
  { intros c l b d' s1 L1 L1b L2 L3.
    assert (F1 : finished s1 i = match r with [] => true | _ => false end) by (exact (finished_set s i _ c l b _ W)).
    assert (FO : forall h, h <> i -> finished s1 h = finished s h)
      by (intros h N; unfold finished; cbn [rs_work s1]; rewrite set_worker_other by congruence; reflexivity).
    assert (IN : forall h, h <> i -> (In h (ord ++ fresh_done s s1 i) <-> In h ord)).
    { intros h N. rewrite in_app_iff. unfold fresh_done. destruct (negb (finished s i) && finished s1 i); cbn; intuition congruence. }
    constructor.
    - cbn. rewrite set_worker_length. apply (i_len _ _ _ _ I).
    - intros h j' w J' W'. cbn [rs_work s1] in W'. destruct (Nat.eq_dec i h) as [<-|N].
      + rewrite (set_worker_same _ _ _ _ W) in W'. inversion W'; subst. rewrite J in J'. inversion J'; subst j'. cbn [wk_todo].
        exists (p ++ [a])%list. rewrite <- app_assoc. exact P.
      + rewrite set_worker_other in W' by exact N. eapply (i_suffix _ _ _ _ I); eauto.
    - intros h j' w J' T L W'. cbn [rs_work rs_lock s1] in W', L. destruct (Nat.eq_dec i h) as [<-|N].
      + rewrite (set_worker_same _ _ _ _ W) in W'. inversion W'; subst. rewrite J in J'. inversion J'; subst j'. cbn [wk_todo].
        destruct (L2 T) as [X|[-> _]]; [congruence|]. right. split; [reflexivity|]. rewrite in_app_iff. right.
        unfold fresh_done. rewrite NF, F1. left. reflexivity.
      + rewrite set_worker_other in W' by exact N.
        assert (LS : rs_lock s <> Some h).
        { intros X. apply L. apply L1b; [congruence|exact X]. }
        destruct (i_wait _ _ _ _ I h j' w J' T LS W') as [[X Y]|[X Y]]; [left|right]; (split; [exact X|]); rewrite IN by congruence; assumption.
    - exact L3.
    - destruct (i_ord _ _ _ _ I) as [O1 O2]. split.
      + unfold fresh_done. destruct (negb (finished s i) && finished s1 i); [|now rewrite app_nil_r].
        apply (Permutation_NoDup (Permutation_cons_append ord i)). now constructor.
      + intros h X. destruct (Nat.eq_dec h i) as [->|N].
        * apply in_app_iff in X. destruct X as [X|X]; [contradiction|]. unfold fresh_done in X.
          destruct (finished s1 i) eqn:E; [reflexivity|]. rewrite andb_false_r in X. destruct X.
        * rewrite FO by exact N. apply O2. now apply IN. }
  assert (FN : forall c l b d', r <> [] -> fresh_done s {| rs_set := c; rs_lock := l; rs_busy := b; rs_dead := false;
      rs_work := set_worker (rs_work s) i {| wk_todo := r; wk_copy := d' |} |} i = []).
  { intros c l b d' N. unfold fresh_done. rewrite (finished_set s i _ c l b _ W). cbn [wk_todo]. destruct r; [congruence|]. now rewrite andb_false_r. }
  destruct (is_transfer j) eqn:T.
  - (* a transfer *)
    destruct j as [ws|n|o]; try discriminate.
    assert (LI : rs_lock s <> Some i).
    { intros X. pose proof (i_lock _ _ _ _ I) as L. rewrite X in L. destruct L as (j' & d' & r' & J' & T' & _). rewrite J in J'. inversion J'; subst. discriminate. }
    assert (ONE : forall l, one_by_one jobs (ord ++ l) c0 = one_by_one jobs ord c0 \/ ~ (l = [] \/ l = [i])).
    { intros l. destruct l as [|x [|y l]]; [left; now rewrite app_nil_r| |right; intros [X|X]; discriminate].
      destruct (Nat.eq_dec x i) as [->|N]; [|right; intros [X|X]; congruence]. left. rewrite one_by_one_snoc, J. reflexivity. }
    assert (GO : forall d', rs_dead {| rs_set := rs_set s; rs_lock := rs_lock s; rs_busy := rs_busy s; rs_dead := false;
        rs_work := set_worker (rs_work s) i {| wk_todo := r; wk_copy := d' |} |} = false /\
      inv jobs c0 {| rs_set := rs_set s; rs_lock := rs_lock s; rs_busy := rs_busy s; rs_dead := false;
        rs_work := set_worker (rs_work s) i {| wk_todo := r; wk_copy := d' |} |}
        (ord ++ fresh_done s {| rs_set := rs_set s; rs_lock := rs_lock s; rs_busy := rs_busy s; rs_dead := false;
        rs_work := set_worker (rs_work s) i {| wk_todo := r; wk_copy := d' |} |} i)).
    { intros d'. split; [reflexivity|]. apply KEEP; auto; [discriminate|].
      set (fd := fresh_done _ _ _). assert (FD : fd = [] \/ fd = [i]) by (unfold fd, fresh_done; destruct (_ && _); auto).
      assert (O : one_by_one jobs (ord ++ fd) c0 = one_by_one jobs ord c0) by (destruct (ONE fd) as [X|X]; [exact X|contradiction]).
      clearbody fd. pose proof (i_lock _ _ _ _ I) as L. destruct (rs_lock s) as [h|] eqn:LS; [|rewrite O; exact L].
      destruct L as (j' & dd & r' & J' & T' & W' & N' & E' & B'). assert (NH : h <> i) by congruence.
      exists j', dd, r'. cbn [rs_work rs_set rs_busy]. rewrite set_worker_other by congruence. rewrite O. repeat split; auto.
      rewrite in_app_iff. intros [X|X]; [contradiction|]. destruct FD; subst fd; cbn in X; intuition congruence. }
    assert (COL : rs_busy s = true -> collision jobs s i).
    { intros B. exists o. split; [exact J|]. right. pose proof (i_lock _ _ _ _ I) as L. destruct (rs_lock s) as [h|]; [|destruct L; congruence].
      destruct L as (j' & dd & r' & J' & T' & W' & N' & E' & [[B' _]|[_ (k & v & r2 & -> & _)]]); [congruence|].
      exists h, j', k, v. repeat split; auto. destruct (i_suffix _ _ _ _ I h j' _ J' W') as (q & Q). cbn [wk_todo] in Q.
      assert (X : In (AStored k v) (program j')) by (rewrite Q; apply in_app_iff; right; left; reflexivity).
      destruct (in_body_setting j' _ T' X) as [Y|[Y|Y]]; try discriminate. exact Y. }
    assert (KIND : match a with ATake _ | ALook | ATakeGlobal _ | ANonempty => True | _ => False end).
    { assert (X : In a (program (JTransfer o))) by (rewrite P; apply in_app_iff; right; left; reflexivity).
      cbn [program body] in X. apply in_app_iff in X. destruct X as [X|X].
      - unfold take_members in X. cbn in X. repeat (destruct X as [<-|X]; [exact Logic.I|]). destruct X.
      - unfold take_global in X. destruct X as [<-|X]; [exact Logic.I|]. apply in_app_iff in X. destruct X as [X|[<-|[]]]; [|exact Logic.I].
        apply in_flat_map in X. destruct X as (k & _ & [<-|[<-|[]]]); exact Logic.I. }
    destruct a; try contradiction.
    + destruct (rs_busy s) eqn:B; inversion H; subst s'; [left; split; [reflexivity|apply COL; reflexivity]|right]. apply GO.
    + inversion H; subst s'. right. apply GO.
    + destruct (rs_busy s) eqn:B; inversion H; subst s'; [left; split; [reflexivity|apply COL; reflexivity]|right]. apply GO.
    + destruct (cl_global (rs_set s)) eqn:G; inversion H; subst s'; [left; split; [reflexivity|]|right; apply GO].
      exists o. split; [exact J|]. left. exact G.
  - destruct (rs_lock s) as [h|] eqn:LS; [destruct (Nat.eq_dec h i) as [->|NH]|].
    + (* it holds the lock *)
      pose proof (i_lock _ _ _ _ I) as L. rewrite LS in L. destruct L as (j' & dd & r0 & J' & T' & W' & N' & E' & B').
      rewrite J in J'. inversion J'; subst j'. rewrite W in W'. inversion W' as [[X Y]]; subst dd. clear W' J'.
      destruct r0 as [|a0 r1].
      * cbn in X. inversion X; subst a r. inversion H; subst s'. right. split; [reflexivity|].
        destruct B' as [[B' _]|[_ (k & v & r2 & Z & _)]]; [|discriminate].
        apply KEEP; auto; try (intros; congruence). rewrite B'. split; [reflexivity|].
        unfold fresh_done. rewrite NF, (finished_set s i _ _ _ _ _ W). cbn [wk_todo negb andb]. rewrite one_by_one_snoc, J.
        rewrite <- body_effect by exact T. exact E'.
      * cbn in X. inversion X; subst a0 r. clear X.
        assert (RN : (r1 ++ [AUnlock])%list <> []) by (destruct r1; discriminate).
        assert (GO : forall c b, effect r1 c = effect (body j) (one_by_one jobs ord c0) ->
           ((b = false /\ okb r1 = true) \/ (b = true /\ exists k v r', r1 = AStored k v :: r' /\ okb r' = true)) ->
           let s1 := {| rs_set := c; rs_lock := Some i; rs_busy := b; rs_dead := false;
             rs_work := set_worker (rs_work s) i {| wk_todo := (r1 ++ [AUnlock])%list; wk_copy := d |} |} in
           rs_dead s1 = false /\ inv jobs c0 s1 (ord ++ fresh_done s s1 i)).
        { intros c b E B s1. split; [reflexivity|]. apply KEEP; auto; try (intros; congruence).
          unfold s1. rewrite FN by exact RN. rewrite app_nil_r. exists j, d, r1. cbn [rs_work rs_set rs_busy]. rewrite (set_worker_same _ _ _ _ W).
          repeat split; auto. }
        destruct B' as [[B' K]|[B' (k & v & r2 & Z & K)]].
        -- destruct a; cbn in K; try discriminate.
           ++ rewrite B' in H. inversion H; subst s'. right. destruct r1 as [|y r1]; [discriminate|]. destruct y; try discriminate.
              rewrite !andb_true_iff in K. destruct K as [[K1 K2] K]. apply String.eqb_eq in K1, K2. subst.
              apply GO; [exact E'|]. right. split; [reflexivity|]. eauto 10.
           ++ inversion H; subst s'. right. rewrite B'. apply GO; [exact E'|]. left. auto.
           ++ rewrite B' in H. inversion H; subst s'. right. apply GO; [exact E'|]. left. auto.
        -- inversion Z; subst a r2. inversion H; subst s'. right. apply GO; [exact E'|]. left. auto.
    + (* another one does *)
      exfalso. assert (LI : rs_lock s <> Some i) by congruence.
      destruct (i_wait _ _ _ _ I i j _ J T LI W) as [[X _]|[X _]]; [|discriminate]. cbn [wk_todo] in X.
      destruct j; try discriminate; cbn [program] in X; inversion X; subst a; discriminate.
    + assert (LI : rs_lock s <> Some i) by congruence.
      destruct (i_wait _ _ _ _ I i j _ J T LI W) as [[X _]|[X _]]; [|discriminate]. cbn [wk_todo] in X.
      assert (X' : a = ALock /\ r = (body j ++ [AUnlock])%list) by (destruct j; try discriminate; cbn [program] in X; inversion X; auto).
      destruct X' as [-> ->]. inversion H; subst s'. right. split; [reflexivity|].
      pose proof (i_lock _ _ _ _ I) as L. rewrite LS in L. destruct L as [B S].
      assert (RN : (body j ++ [AUnlock])%list <> []) by (destruct (body j); discriminate).
      apply KEEP; auto; try (intros; congruence). rewrite FN by exact RN. rewrite app_nil_r. exists j, d, (body j). cbn [rs_work rs_set rs_busy].
      rewrite (set_worker_same _ _ _ _ W). rewrite S. repeat split; auto. left. split; [exact B|]. now apply okb_body.
Qed.

Lemma run_inv : forall jobs c0 is s ord, inv jobs c0 s ord -> rs_dead s = false ->
  (rs_dead (rrun s is) = true /\ exists before i, collision jobs (rrun s before) i /\ rs_dead (rrun s before) = false) \/
  (rs_dead (rrun s is) = false /\ inv jobs c0 (rrun s is) (ord ++ finishing s is)).
Proof.
  intros jobs c0. induction is as [|i is IH]; intros s ord I D; [right; cbn; rewrite app_nil_r; auto|].
  cbn [rrun finishing]. destruct (rstep s i) as [s'|] eqn:R; [|].
  - destruct (step_inv _ _ _ _ _ _ I D R) as [[D' C]|[D' I']].
    + left. rewrite rrun_dead by exact D'. split; [exact D'|]. exists [], i. split; [exact C|exact D].
    + destruct (IH s' _ I' D') as [[D2 (b & h & C & A)]|[D2 I2]].
      * left. split; [exact D2|]. exists (i :: b), h. cbn [rrun]. rewrite R. auto.
      * right. split; [exact D2|]. unfold fresh_done in I2. destruct (negb (finished s i) && finished s' i).
        -- rewrite <- app_assoc in I2. exact I2.
        -- rewrite app_nil_r in I2. exact I2.
  - destruct (IH s ord I D) as [[D2 (b & h & C & A)]|R2]; [|right; exact R2].
    left. split; [exact D2|]. exists b, h. auto.
Qed.

(** ** What the accesses of a command do to the header flags *)
Lemma stored_by_in : forall k a cases x, In x (stored_by k a cases) -> exists v, In (a, v) cases /\ (x = AStore k v \/ x = AStored k v).
Proof.
  induction cases as [|[b v] r IH]; intros x H; [destruct H|]. cbn in H. destruct (String.eqb_spec a b) as [->|N].
  - exists v. split; [left; reflexivity|]. destruct H as [H|[H|[]]]; auto.
  - destruct (IH x H) as (v' & X & Y). exists v'. split; [right; exact X|exact Y].
Qed.
Lemma body_acts : forall j x, is_transfer j = false -> In x (body j) ->
  (forall k v, x = AStored k v -> exists ws, j = JSetting ws /\ sets_flag ws k v) /\
  (forall f, x = ASet f -> forall c, cl_global (f c) = cl_global c).
Proof.
  intros [ws|n|o] x T H; [| |discriminate].
  2:{ cbn in H. apply repeat_spec in H. subst. split; intros; discriminate. }
  cbn [body] in H. destruct ws as [|name ws]; [destruct H|].
  assert (PT : forall nm n, In x (put_timer nm n) -> (forall k v, x = AStored k v -> exists ws0, JSetting (name :: ws) = JSetting ws0 /\ sets_flag ws0 k v) /\
                (forall f, x = ASet f -> forall c, cl_global (f c) = cl_global c)).
  { intros nm n X. unfold put_timer in X.
    repeat destruct (String.eqb _ _); try (destruct X as [<-|[]]); try destruct X; (split; [intros; discriminate|intros f E; inversion E; subst; reflexivity]). }
  assert (ST : forall cmd k cases, name = cmd ->
     (forall a v, In (a, v) cases -> sets_flag [cmd; a] k v) -> forall a, ws = [a] -> In x (stored_by k a cases) ->
       (forall k v, x = AStored k v -> exists ws0, JSetting (name :: ws) = JSetting ws0 /\ sets_flag ws0 k v) /\
       (forall f, x = ASet f -> forall c, cl_global (f c) = cl_global c)).
  { intros cmd k cases -> A a -> X. destruct (stored_by_in _ _ _ _ X) as (v & Y & [-> | ->]); (split; [|intros; discriminate]); intros k' v' E; [discriminate|].
    inversion E; subst. eexists; split; [reflexivity|]. now apply A. }
  assert (LK : x = ALook -> (forall k v, x = AStored k v -> exists ws0, JSetting (name :: ws) = JSetting ws0 /\ sets_flag ws0 k v) /\
       (forall f, x = ASet f -> forall c, cl_global (f c) = cl_global c)) by (intros ->; split; intros; discriminate).
  Ltac in_choices := intros ? ? Y; cbn in Y;
    repeat (destruct Y as [Y|Y]; [inversion Y; subst; eexists _, _, _; split; [reflexivity|]; split; [unfold choices; repeat (first [left; reflexivity|right])|repeat (first [left; reflexivity|right])]|]); destruct Y.
  unfold accesses in H. cbn [lookup] in H.
  repeat (match type of H with context [if String.eqb name ?b then _ else _] => destruct (String.eqb_spec name b) as [E|_] end;
    [|]); [..|destruct H].
  - unfold acc_bcount in H. args_cases ws; try (destruct H; fail). destruct (atoi x0); [|destruct H]. destruct (0 <=? z)%Z; [|destruct H].
    destruct H as [<-|[]]. split; [intros; discriminate|]. intros f X; inversion X; subst. reflexivity.
  - unfold acc_checksum in H. args_cases ws; try (destruct H; fail); [destruct H as [<-|[]]; auto|].
    destruct (one_of _ _); [|destruct H]. apply in_app_iff in H. destruct H as [H|[<-|[]]]; [|auto]. eapply (ST _ _ _ E); [|reflexivity|exact H]. in_choices.
  - unfold acc_descriptor in H. args_cases ws; try (destruct H; fail); [destruct H as [<-|[]]; auto|].
    destruct (String.eqb _ _); [destruct H|]. apply in_app_iff in H. destruct H as [H|[<-|[]]]; [|auto]. eapply (ST _ _ _ E); [|reflexivity|exact H]. in_choices.
  - unfold acc_flag in H. args_cases ws; try (destruct H; fail); [destruct H as [<-|[]]; auto|]. eapply (ST _ _ _ E); [|reflexivity|exact H]. in_choices.
  - unfold acc_interval in H. args_cases ws; try (destruct H; fail).
    assert (X : exists n, In x [ASet (fun c => set_timeout c (with_binterval (cl_timeout c) n))]).
    { destruct (String.eqb _ _); [eauto|]. destruct (atoi x0); [|destruct H]. destruct (0 <=? z)%Z; [eauto|destruct H]. }
    destruct X as (n & [<-|[]]). split; [intros; discriminate|]. intros f X; inversion X; subst. reflexivity.
  - unfold acc_flag in H. args_cases ws; try (destruct H; fail); [destruct H as [<-|[]]; auto|]. eapply (ST _ _ _ E); [|reflexivity|exact H]. in_choices.
  - unfold acc_flag in H. args_cases ws; try (destruct H; fail); [destruct H as [<-|[]]; auto|]. eapply (ST _ _ _ E); [|reflexivity|exact H]. in_choices.
  - unfold acc_flag in H. args_cases ws; try (destruct H; fail); [destruct H as [<-|[]]; auto|]. eapply (ST _ _ _ E); [|reflexivity|exact H]. in_choices.
  - unfold acc_timeout in H.
    assert (CT : In x [ASet (fun c => let t := cl_timeout c in if (to_datacounter t =? 0)%Z then set_timeout c (with_datacounter t 100) else c)] ->
      (forall k v, x = AStored k v -> exists ws0, JSetting (name :: ws) = JSetting ws0 /\ sets_flag ws0 k v) /\
      (forall f, x = ASet f -> forall c, cl_global (f c) = cl_global c)).
    { intros [<-|[]]. split; [intros; discriminate|]. intros f X c; inversion X; subst. cbv zeta. destruct (_ =? _)%Z; reflexivity. }
    args_cases ws; try (destruct H; fail); [exact (CT H)| |].
    + destruct (String.eqb _ _); [exact (CT H)|destruct H].
    + destruct (match atoi x1 with Some n => if (0 <=? n)%Z then Some n else None | None => None end) as [n|]; [exact (PT _ _ H)|].
      destruct (String.eqb _ _); [exact (PT _ _ H)|destruct H].
  - unfold acc_timestamp in H. args_cases ws; try (destruct H; fail); [destruct H as [<-|[]]; auto|].
    Ltac stamp_case H := unfold store in H; cbn [app] in H;
      repeat (destruct H as [<-|H]; [split; [intros k' v' X; first [discriminate X|inversion X; subst; eexists; split; [reflexivity|]; eexists _, _, _; split; [reflexivity|];
          split; [unfold choices; repeat (first [left; reflexivity|right])|repeat (first [left; reflexivity|right])]]|intros f X c; inversion X; subst; reflexivity]|]); destruct H.
    repeat (match type of H with context [if String.eqb x0 ?b then _ else _] => destruct (String.eqb_spec x0 b) as [->|_] end;
      [subst name; stamp_case H|]). destruct H.
  - unfold acc_timezone in H. args_cases ws; try (destruct H; fail). destruct (one_of _ _); [|destruct H].
    destruct H as [<-|[]]. split; [intros; discriminate|]. intros f X; inversion X; subst. reflexivity.
  - unfold acc_flag in H. args_cases ws; try (destruct H; fail); [destruct H as [<-|[]]; auto|]. eapply (ST _ _ _ E); [|reflexivity|exact H]. in_choices.
Qed.
(** A command that sets a header flag begins by storing it, and stores nothing else in Global *)
Lemma sets_flag_body : forall ws f v, sets_flag ws f v ->
  exists r, body (JSetting ws) = AStore f v :: AStored f v :: r /\ forall k w, ~ In (AStored k w) r.
Proof.
  intros ws f v (cmd & a & l & -> & C & L). unfold choices in C. cbn [In] in C.
  repeat (destruct C as [C|C];
    [inversion C; subst cmd a l; clear C; cbn [In] in L; repeat (destruct L as [L|L]; [first [discriminate L|inversion L; subst f v; eexists; split; [reflexivity|];
       intros k w X; cbn in X; repeat (destruct X as [X|X]; [discriminate|]); exact X]|]); destruct L|]). destruct C.
Qed.
