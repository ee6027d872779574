(** * Runs of the command line: lemmas *)

From Verif Require Import GoBase GoFacts Flags SpecFlags FlagsFacts SarFacts Config Shipped Data SpecFrames Beacon Sarnet Transfer Words SpecWords WordsFacts Cli SpecCli CliFacts CliFacts2.
Local Open Scope string_scope.
Local Open Scope N_scope.

Lemma set_nth_same : forall l i t x, nth_error l i = Some x -> nth_error (set_nth l i t) i = Some t.
Proof. induction l as [|y l IH]; intros [|i] t x H; try discriminate; cbn; eauto. Qed.
Lemma set_nth_other : forall l i j t, i <> j -> nth_error (set_nth l i t) j = nth_error l j.
Proof. induction l as [|y l IH]; intros [|i] [|j] t H; cbn; try congruence; auto. Qed.
Lemma set_nth_length : forall l i t, length (set_nth l i t) = length l.
Proof. induction l as [|y l IH]; intros [|i] t; cbn; auto. Qed.
Lemma set_nth_cases : forall l i t j x, nth_error (set_nth l i t) j = Some x -> (j = i /\ x = t) \/ (j <> i /\ nth_error l j = Some x).
Proof.
  intros l i t j x H. destruct (Nat.eq_dec j i) as [->|N].
  - destruct (nth_error l i) as [y|] eqn:Y.
    + rewrite (set_nth_same l i t y Y) in H. inversion H. auto.
    + exfalso. apply nth_error_None in Y. assert (i < length (set_nth l i t))%nat by (apply nth_error_Some; congruence).
      rewrite set_nth_length in H0. lia.
  - right. split; auto. rewrite <- H. symmetry. apply set_nth_other. auto.
Qed.

(** The variables that most commands leave alone *)
Record kept (s s' : ystate) : Prop := {
  k_cli : y_cli s' = y_cli s; k_beacon : y_beacon s' = y_beacon s; k_peers : y_peers s' = y_peers s;
  k_chans : y_chans s' = y_chans s; k_sent : y_sent s' = y_sent s; k_dead : y_dead s' = y_dead s }.
Definition plain_task (t : task) : Prop := t = TEnd \/ t = TDo None \/ exists a b c d, t = TAdd a b c d.

(** What a step of goroutine [i] can be *)
Inductive moved (E : cenv) (s : ystate) (i : nat) : ystate -> Prop :=
| mv_dies : forall t, nth_error (y_tasks s) i = Some t -> (forall x, t <> TBeacon x) -> moved E s i (y_kill s)
| mv_set : forall name f rest, nth_error (y_tasks s) i = Some (TStart (name :: rest)) -> lookup name setting_commands = Some f ->
    existsb holds_climu (y_tasks s) = false ->
    moved E s i (finish (y_with_cli s (fst (f (y_cli s) (name :: rest)))) i (snd (f (y_cli s) (name :: rest))))
| mv_beacon : forall rest b l todo, nth_error (y_tasks s) i = Some (TStart ("beacon" :: rest)) ->
    existsb holds_climu (y_tasks s) = false -> cmd_beacon (y_cli s) (y_beacon s) ("beacon" :: rest) = (b, l, todo) ->
    moved E s i (y_show (become (y_with_beacon s b) i (TBeacon todo)) l)
| mv_other : forall t t' s', nth_error (y_tasks s) i = Some t -> holds_climu t = false -> (forall ch x, t <> TWait ch x) -> t <> TDo None -> t <> TEnd ->
    plain_task t' -> kept s s' -> y_tasks s' = set_nth (y_tasks s) i t' -> moved E s i s'
| mv_wait : forall a b c s' t, nth_error (y_tasks s) i = Some (TAdd a b c true) ->
    y_cli s' = y_cli s -> y_beacon s' = y_beacon s -> y_peers s' = y_peers s -> y_sent s' = y_sent s -> y_dead s' = y_dead s ->
    y_chans s' = (y_chans s ++ [[]])%list ->
    y_tasks s' = (set_nth (y_tasks s) i (TWait (length (y_chans s)) t) ++ [TDo (Some (length (y_chans s)))])%list ->
    moved E s i s'
| mv_got : forall ch t e l s', nth_error (y_tasks s) i = Some (TWait ch t) -> nth_error (y_chans s) ch = Some (e :: l) ->
    kept s s' -> y_tasks s' = set_nth (y_tasks s) i TEnd -> moved E s i s'
| mv_loop : forall x rest s', nth_error (y_tasks s) i = Some (TBeacon (x :: rest)) -> beacon_step E s i x rest = Ret s' -> moved E s i s'
| mv_loop_dies : forall x rest, nth_error (y_tasks s) i = Some (TBeacon (x :: rest)) -> (forall s', beacon_step E s i x rest <> Ret s') ->
    moved E s i (y_kill s)
| mv_end : nth_error (y_tasks s) i = Some (TBeacon []) -> moved E s i (become s i TEnd).

Lemma start_transfer_moved : forall E s i tc args rest, nth_error (y_tasks s) i = Some (TStart rest) ->
  moved E s i (start_transfer E s i tc args).
Proof.
  intros E s i tc args rest N. unfold start_transfer.
  assert (D : forall l, moved E s i (finish s i l)).
  { intros l. apply (mv_other E s i _ TEnd _ N); try (intros; discriminate); [reflexivity|left; reflexivity|constructor; reflexivity|reflexivity]. }
  destruct args as [|x [|a [|f [|]]]]; auto.
  destruct (udp_address (ce_resolve E) a) as ([peer|] & [e|]); auto.
  destruct (initiator_check _ _ _ _ _ _ _).
  - apply (mv_other E s i _ TEnd _ N); try (intros; discriminate); [reflexivity|left; reflexivity|constructor; reflexivity|reflexivity].
  - eapply (mv_other E s i _ (TAdd _ _ _ _) _ N); try (intros; discriminate); [reflexivity|right; right; eauto|constructor; reflexivity|reflexivity].
Qed.
Lemma Some_inj : forall {A} (a b : A), Some a = Some b -> b = a.
Proof. intros A a b H. congruence. Qed.
Ltac inj H := apply Some_inj in H; subst.
Lemma start_moved : forall E s i args s', nth_error (y_tasks s) i = Some (TStart args) -> start_step E s i args = Some s' -> moved E s i s'.
Proof.
  intros E s i args s' N H. unfold start_step in H.
  assert (D : forall tr z l, moved E s i (finish (y_with_exit (y_with_tran s tr) z) i l)).
  { intros tr z l. apply (mv_other E s i _ TEnd _ N); try (intros; discriminate); [reflexivity|left; reflexivity|constructor; reflexivity|reflexivity]. }
  assert (D0 : forall l, moved E s i (finish s i l)).
  { intros l. apply (mv_other E s i _ TEnd _ N); try (intros; discriminate); [reflexivity|left; reflexivity|constructor; reflexivity|reflexivity]. }
  assert (K : moved E s i (y_kill s)) by (eapply mv_dies; [exact N|intros; discriminate]).
  destruct args as [|name rest].
  { discriminate H. }
  destruct (lookup name setting_commands) as [f|] eqn:L.
  { destruct (existsb holds_climu (y_tasks s)) eqn:B; [discriminate|]. destruct (f (y_cli s) (name :: rest)) as (c & l) eqn:F. inj H.
    pose proof (mv_set E s i name f rest N L B) as M. rewrite F in M. exact M. }
  destruct (lookup name transfer_commands) as [tc|] eqn:TC.
  { inj H. eapply start_transfer_moved; eauto. }
  destruct (String.eqb_spec name "beacon") as [->|].
  { destruct (existsb holds_climu (y_tasks s)) eqn:B; [discriminate|].
    destruct (cmd_beacon (y_cli s) (y_beacon s) ("beacon" :: rest)) as ((b & l) & todo) eqn:CB. inj H. eapply mv_beacon; eauto. }
  destruct (String.eqb name "cancel"); [inj H; apply D0|].
  destruct (String.eqb name "clear"); [inj H; apply D0|].
  destruct (one_of name ["exit"; "quit"]); [destruct (cmd_exit _ _) as (z & l); inj H; apply (D (y_tran s) z l)|].
  destruct (String.eqb name "files"); [inj H; apply D0|].
  destruct (one_of name ["help"; "?"]); [inj H; apply D0|].
  destruct (String.eqb name "history"); [inj H; apply D0|].
  destruct (String.eqb name "home"); [inj H; apply D0|].
  destruct (String.eqb name "ls"); [inj H; destruct (cmd_ls _); cbn [obind or_die]; auto|].
  destruct (String.eqb name "peers"); [inj H; destruct (cmd_peers _ _); cbn [obind or_die]; auto|].
  destruct (String.eqb name "rmtran"); [inj H; destruct (cmd_rmtran _ _) as [(table & l)| |]; cbn [obind or_die]; auto; apply (D _ (y_exit s) l)|].
  destruct (String.eqb name "tran"); [inj H; apply D0|].
  destruct (String.eqb name "usage"); [inj H; apply D0|]. discriminate.
Qed.
Lemma step_moved : forall E s i s', task_step E s i = Some s' -> moved E s i s'.
Proof.
  intros E s i s' H. unfold task_step in H. destruct (nth_error (y_tasks s) i) as [t|] eqn:N; [|discriminate].
  destruct t as [args|todo|ttype peer fname waits|ch t|[e|]|].
  - eapply start_moved; eauto.
  - destruct todo as [|x rest]; [inj H; apply mv_end; auto|]. inj H. destruct (beacon_step E s i x rest) as [s1| |] eqn:B; cbn [or_die].
    + eapply mv_loop; eauto.
    + eapply mv_loop_dies; eauto. rewrite B. discriminate.
    + eapply mv_loop_dies; eauto. rewrite B. discriminate.
  - inj H. destruct (initiator_add _ _ _ _ _ _ _) as [(t' & t)| |]; cbn [obind or_die].
    + destruct waits.
      * eapply (mv_wait E s i _ _ _ _ t N); reflexivity.
      * apply (mv_other E s i _ TEnd _ N); try (intros; discriminate); [reflexivity|left; reflexivity|constructor; reflexivity|reflexivity].
    + eapply mv_dies; [exact N|intros; discriminate].
    + eapply mv_dies; [exact N|intros; discriminate].
  - destruct (nth_error (y_chans s) ch) as [[|e l]|] eqn:C; try discriminate. inj H.
    eapply (mv_got E s i ch t e l); [exact N|exact C|constructor; reflexivity|reflexivity].
  - inj H. apply (mv_other E s i _ (TDo None) _ N); try (intros; discriminate); [reflexivity|right; left; reflexivity|constructor; reflexivity|reflexivity].
  - discriminate.
  - discriminate.
Qed.

(** What a step of the beacon command leaves alone *)
Lemma beacon_step_kept : forall E s i x rest s', beacon_step E s i x rest = Ret s' ->
  y_cli s' = y_cli s /\ y_chans s' = y_chans s /\ y_dead s' = y_dead s /\ y_peers s' = y_peers s /\ y_tran s' = y_tran s /\ y_exit s' = y_exit s /\
  bc_flags (y_beacon s') = bc_flags (y_beacon s) /\ bc_count (y_beacon s') = bc_count (y_beacon s) /\
  (bc_hosts (y_beacon s) = [] -> bc_hosts (y_beacon s') = []) /\
  exists todo, y_tasks s' = set_nth (y_tasks s) i (TBeacon todo).
Proof.
  intros E s i x rest s' H. destruct x as [off text|text|to b more]; cbn [beacon_step] in H.
  - destruct (udp_address (ce_resolve E) text) as ([to|] & [e|]).
    1,3,4: inversion H; subst; repeat split; auto; eexists; reflexivity.
    destruct off.
    + inversion H; subst. repeat split; auto; [cbn; intros ->; reflexivity|eexists; reflexivity].
    + destruct (begin_beacons E (y_beacon s) to) as [(r & l)| |]; [|discriminate..]. cbn [obind] in H. inversion H; subst.
      repeat split; auto. eexists; reflexivity.
  - destruct (udp_address (ce_resolve E) text) as ([to|] & [e|]).
    1,3,4: inversion H; subst; repeat split; auto; eexists; reflexivity.
    destruct (begin_beacons E (y_beacon s) to) as [(r & l)| |]; [|discriminate..]. cbn [obind] in H. inversion H; subst.
    repeat split; auto. eexists; reflexivity.
  - destruct (more =? 0); [inversion H; subst; repeat split; auto; eexists; reflexivity|].
    destruct (beacon_encode b) as [[f|e]| |]; [..|discriminate|discriminate]; cbn [obind] in H.
    + destruct (ce_write E).
      * destruct (beacon_shortprint_ok b); [|discriminate..]. cbn [obind] in H. inversion H; subst. repeat split; auto; eexists; reflexivity.
      * inversion H; subst. repeat split; auto; eexists; reflexivity.
    + inversion H; subst. repeat split; auto; eexists; reflexivity.
Qed.

(** ** The invariant *)

Definition held (s : ystate) (i : nat) : Prop := exists todo, nth_error (y_tasks s) i = Some (TBeacon todo).
Record inv (s : ystate) : Prop := {
  i_keys : keys (cl_global (y_cli s)) = keys (cl_global sar_cli);
  i_rest : forall k, In k [Group4; Group6; Port; Prompt; Pad; Directory; Buffer] -> value (y_cli s) k = value sar_cli k;
  i_hosts : bc_hosts (y_beacon s) = [];
  i_one : forall i j, held s i -> held s j -> i = j;
  i_held : forall i, held s i -> bc_flags (y_beacon s) = sf_setglobal sar "beacon" (y_cli s) /\ bc_count (y_beacon s) = cl_bcount (y_cli s);
  i_chans : Forall (fun c => c = []) (y_chans s) }.

Lemma update_keys : forall {V} k (v : V) m, In k (keys m) -> keys (update k v m) = keys m.
Proof.
  intros V k v m. induction m as [|[a b] m IH]; intros I; [destruct I|]. cbn. destruct (String.eqb_spec k a); [subst; reflexivity|].
  cbn. f_equal. apply IH. cbn in I. destruct I as [I|I]; [congruence|auto].
Qed.
Lemma setting_keys : forall name f c rest, lookup name setting_commands = Some f -> keys (cl_global c) = keys (cl_global sar_cli) ->
  keys (cl_global (fst (f c (name :: rest)))) = keys (cl_global c).
Proof.
  intros name f c rest L K.
  assert (U : forall k v, In k (keys (cl_global sar_cli)) -> keys (cl_global (set_global c k v)) = keys (cl_global c)).
  { intros k v I. apply update_keys. now rewrite K. }
  unfold setting_commands in L. cbn [lookup] in L.
  repeat (match type of L with context [String.eqb name ?b] => destruct (String.eqb_spec name b) as [->|_] end;
    [inversion L; clear L; subst f|]); [..|discriminate].
  all: match goal with |- keys (cl_global (fst (?g _ _))) = _ => unfold g end; destruct rest as [|a [|v [|]]]; try reflexivity.
  all: cbv zeta.
  all: repeat match goal with |- context [if ?b then _ else _] => destruct b end; try reflexivity.
  all: try (apply U; vm_compute; auto 20; fail).
  all: try (change (keys (cl_global (set_timestamp ?x ?y))) with (keys (cl_global x)); cbn [fst]; apply U; vm_compute; auto 20; fail).
  all: repeat match goal with |- context [match ?b with Some _ => _ | None => _ end] => destruct b end; try reflexivity.
  all: repeat match goal with |- context [if ?b then _ else _] => destruct b end; try reflexivity.
Qed.
Lemma setting_rest : forall name f c rest k, lookup name setting_commands = Some f ->
  In k [Group4; Group6; Port; Prompt; Pad; Directory; Buffer] -> value (fst (f c (name :: rest))) k = value c k.
Proof.
  intros name f c rest k L I. rewrite (setting_changes name f c rest L k).
  destruct (kfind k (ordered c (name :: rest))) as [v|] eqn:F; [|reflexivity]. exfalso.
  apply (ordered_complete c (name :: rest)) in F. revert F I. generalize (name :: rest). intros ws F I. cbn in I. inversion F; subst; try (repeat destruct I as [I|I]; try discriminate; auto; fail).
  unfold choices in H. repeat (destruct H as [X|H]; [inversion X; subst; repeat (destruct H0 as [Y|H0]; [inversion Y; subst; repeat destruct I as [I|I]; try discriminate; auto|]); auto|]). destruct H.
Qed.
Lemma cmd_beacon_facts : forall c b args b' l todo, cmd_beacon c b args = (b', l, todo) ->
  bc_flags b' = sf_setglobal sar "beacon" c /\ bc_count b' = cl_bcount c /\ (bc_hosts b = [] -> bc_hosts b' = []).
Proof.
  intros c b args b' l todo H. destruct args as [|x [|a [|y r]]]; cbn [cmd_beacon] in H.
  - inversion H; subst. auto.
  - destruct (_ && _); inversion H; subst; auto.
  - destruct (String.eqb a "?"); [inversion H; subst; auto|]. destruct (String.eqb a "off"); [inversion H; subst; auto|].
    destruct (String.eqb a "v4"); [inversion H; subst; auto|]. destruct (String.eqb a "v6"); inversion H; subst; auto.
  - inversion H; subst. auto.
Qed.
Lemma not_busy : forall s i, existsb holds_climu (y_tasks s) = false -> ~ held s i.
Proof.
  intros s i B (todo & H). apply nth_error_In in H. assert (X : existsb holds_climu (y_tasks s) = true) by (apply existsb_exists; exists (TBeacon todo); auto).
  congruence.
Qed.
Lemma busy_held : forall s, existsb holds_climu (y_tasks s) = true -> exists i, held s i.
Proof.
  intros s H. apply existsb_exists in H. destruct H as (t & I & H). destruct t; try discriminate. apply In_nth_error in I. destruct I as (i & I).
  exists i, todo. auto.
Qed.
Lemma plain_not_held : forall t todo, plain_task t -> t <> TBeacon todo.
Proof. intros t todo [->|[->|(a & b & c & d & ->)]]; discriminate. Qed.
Lemma moved_inv : forall E s i s', inv s -> moved E s i s' -> inv s'.
Proof.
  intros E s i s' [IK IR IH I1 IB IC] M. destruct M.
  - constructor; auto.
  - assert (NB : forall j, ~ held (finish (y_with_cli s (fst (f (y_cli s) (name :: rest)))) i (snd (f (y_cli s) (name :: rest)))) j).
    { intros j (todo & T). cbn in T. apply set_nth_cases in T. destruct T as [(_ & T)|(_ & T)]; [discriminate|]. apply (not_busy s j H1). exists todo; auto. }
    constructor; cbn; auto.
    + rewrite (setting_keys _ _ _ _ H0); auto.
    + intros k I. rewrite (setting_rest _ _ _ _ k H0 I). auto.
    + intros a b A. now apply NB in A.
    + intros a A. now apply NB in A.
  - destruct (cmd_beacon_facts _ _ _ _ _ _ H1) as (F & C & Hh).
    assert (O : forall j, held (y_show (become (y_with_beacon s b) i (TBeacon todo)) l) j -> j = i).
    { intros j (t & T). cbn in T. apply set_nth_cases in T. destruct T as [(-> & _)|(_ & T)]; [reflexivity|]. exfalso. apply (not_busy s j H0). exists t; auto. }
    constructor; cbn; auto. intros a b' A B. rewrite (O a A), (O b' B). reflexivity.
  - assert (O : forall j, held s' j -> held s j).
    { intros j (t0 & T). rewrite H6 in T. apply set_nth_cases in T. destruct T as [(-> & T)|(_ & T)]; [|exists t0; auto]. symmetry in T. now apply plain_not_held in T. }
    destruct H5. constructor; rewrite ?k_cli0, ?k_beacon0, ?k_chans0; auto. intros a A. apply (IB a). auto.
  - assert (O : forall j, held s' j -> held s j).
    { intros j (t0 & T). rewrite H6 in T. assert (X := T). destruct (Nat.lt_ge_cases j (length (y_tasks s))).
      - rewrite nth_error_app1 in T by (rewrite set_nth_length; auto). apply set_nth_cases in T. destruct T as [(_ & T)|(_ & T)]; [discriminate|exists t0; auto].
      - rewrite nth_error_app2 in T by (rewrite set_nth_length; auto). destruct (j - _)%nat as [|k]; [discriminate|]. destruct k; discriminate. }
    constructor; rewrite ?H0, ?H1, ?H5; auto. 2:{ apply Forall_app; auto. } intros a0 A. apply (IB a0); auto.
  - exfalso. rewrite Forall_forall in IC. apply nth_error_In in H0. apply IC in H0. discriminate.
  - destruct (beacon_step_kept _ _ _ _ _ _ H0) as (C & Ch & _ & _ & _ & _ & F & Ct & Hh & todo & T).
    assert (O : forall j, held s' j -> held s j).
    { intros j (t0 & X). rewrite T in X. apply set_nth_cases in X. destruct X as [(-> & X)|(_ & X)]; [exists (x :: rest); auto|exists t0; auto]. }
    constructor; rewrite ?C, ?Ch; auto. intros a A. rewrite F, Ct. apply (IB a); auto.
  - constructor; auto.
  - assert (O : forall j, held (become s i TEnd) j -> held s j).
    { intros j (t0 & X). cbn in X. apply set_nth_cases in X. destruct X as [(_ & X)|(_ & X)]; [discriminate|exists t0; auto]. }
    constructor; auto. intros a A. apply (IB a); auto.
Qed.
Lemma step_inv : forall s l s', inv s -> ystep s l = Some s' -> inv s'.
Proof.
  intros s l s' I H. unfold ystep in H. destruct (y_dead s); [discriminate|]. destruct l as [line|E i|fs ps]; [| |inj H; destruct I; constructor; auto].
  - inversion H. destruct (get_line line) as [(g & l)| |]; cbn [obind or_die]; [|destruct I; constructor; auto..].
    destruct g as [args|]; [|destruct I; constructor; auto].
    assert (O : forall j, held (y_with_tasks (y_show s l) (y_tasks (y_show s l) ++ [TStart args])) j -> held s j).
    { intros j (t0 & T). cbn in T. destruct (Nat.lt_ge_cases j (length (y_tasks s))).
      - rewrite nth_error_app1 in T by auto. exists t0; auto.
      - rewrite nth_error_app2 in T by auto. destruct (j - _)%nat as [|k]; [discriminate|]. destruct k; discriminate. }
    destruct I. constructor; auto. intros a A. apply (i_held0 a); auto.
  - apply (moved_inv E s i s' I). apply step_moved; auto.
Qed.
Lemma run_inv : forall ls s, inv s -> inv (yrun s ls).
Proof.
  induction ls as [|l ls IH]; intros s I; [exact I|]. cbn [yrun]. apply IH. destruct (ystep s l) eqn:Y; [eapply step_inv; eauto|auto].
Qed.
Lemma start_inv : forall fs cwd peers, inv (ystart fs cwd peers).
Proof.
  intros. constructor; try reflexivity.
  - intros i j (t & H). destruct i; discriminate.
  - intros i (t & H). destruct i; discriminate.
  - constructor.
Qed.
