(** * The settings under concurrency: C134, C135 *)

From Coq Require Import Lia Permutation.
From Verif Require Import GoBase GoFacts Flags SpecFlags FlagsFacts Config Shipped Data SpecFrames Beacon Transfer Words SpecWords Cli SpecCli Shared SpecShared SharedFacts SharedCopy.
Local Open Scope string_scope.
Local Open Scope N_scope.

Lemma finished_stays : forall s i s' h, rstep s i = Some s' -> finished s h = true -> finished s' h = true.
Proof.
  intros s i s' h R F. unfold rstep in R. destruct (rs_dead s); [discriminate|].
  destruct (nth_error (rs_work s) i) as [[[|a r] d]|] eqn:W; try discriminate.
  assert (N : i <> h) by (intros ->; unfold finished in F; rewrite W in F; discriminate).
  assert (S : rs_work s' = rs_work s \/ exists w, rs_work s' = set_worker (rs_work s) i w).
  { destruct a; repeat match type of R with context [match ?y with _ => _ end] => destruct y end; try discriminate; inversion R; subst s'; cbn [rs_work]; eauto. }
  unfold finished in *. destruct S as [->|(w & ->)]; [exact F|]. rewrite set_worker_other by exact N. exact F.
Qed.
Lemma finished_other : forall s i s' h, rstep s i = Some s' -> i <> h -> finished s' h = finished s h.
Proof.
  intros s i s' h R N. unfold rstep in R. destruct (rs_dead s); [discriminate|].
  destruct (nth_error (rs_work s) i) as [[[|a r] d]|] eqn:W; try discriminate.
  assert (S : rs_work s' = rs_work s \/ exists w, rs_work s' = set_worker (rs_work s) i w).
  { destruct a; repeat match type of R with context [match ?y with _ => _ end] => destruct y end; try discriminate; inversion R; subst s'; cbn [rs_work]; eauto. }
  unfold finished. destruct S as [->|(w & ->)]; [reflexivity|]. now rewrite set_worker_other by exact N.
Qed.
Lemma finished_run : forall is s h, finished s h = true -> finished (rrun s is) h = true.
Proof. induction is as [|i is IH]; intros s h F; [exact F|]. cbn. apply IH. destruct (rstep s i) eqn:R; [eapply finished_stays; eauto|exact F]. Qed.
Lemma finishing_in : forall is s h, In h (finishing s is) <-> finished s h = false /\ finished (rrun s is) h = true.
Proof.
  induction is as [|i is IH]; intros s h; cbn [finishing rrun]; [split; [intros []|intros [A B]; congruence]|].
  destruct (rstep s i) as [s'|] eqn:R; [|apply IH].
  destruct (Nat.eq_dec i h) as [->|N].
  - destruct (finished s h) eqn:F.
    + cbn. rewrite IH. rewrite (finished_stays _ _ _ _ R F). intuition congruence.
    + cbn. destruct (finished s' h) eqn:F'.
      * split; [intros _; split; [reflexivity|now apply finished_run]|intros _; left; reflexivity].
      * rewrite IH, F'. intuition congruence.
  - rewrite <- (finished_other _ _ _ _ R N). destruct (negb (finished s i) && finished s' i); [|apply IH].
    cbn. rewrite IH. intuition congruence.
Qed.
Lemma program_nonempty : forall j, program j <> [].
Proof. intros [ws|n|o]; discriminate. Qed.
Lemma begin_unfinished : forall c jobs i, finished (begin c jobs) i = false.
Proof.
  intros c jobs i. unfold finished, begin. cbn [rs_work]. rewrite nth_error_map. destruct (nth_error jobs i) as [j|]; [|reflexivity]. cbn.
  destruct (program j) eqn:P; [exfalso; eapply program_nonempty; eauto|reflexivity].
Qed.

(** C134: whenever no command is at work, the settings are what the commands that have
    finished make of them one after the other, in the order in which they finished, whatever
    the interleaving of their accesses *)
Lemma c134_serial : forall c jobs is,
  let s := rrun (begin c jobs) is in
  let order := finishing (begin c jobs) is in
  rs_dead s = false -> rs_lock s = None ->
  rs_set s = one_by_one jobs order c /\ NoDup order /\ forall i, In i order <-> finished s i = true.
Proof.
  intros c jobs is s order D L. destruct (run_inv jobs c is (begin c jobs) [] (begin_inv c jobs) eq_refl) as [[X _]|[_ I]]; [fold s in X; congruence|].
  cbn [app] in I. fold s order in I. pose proof (i_lock _ _ _ _ I) as K. rewrite L in K. split; [exact (proj2 K)|].
  split; [exact (proj1 (i_ord _ _ _ _ I))|]. intros i. unfold order. rewrite finishing_in, begin_unfinished. unfold s. intuition.
Qed.
(** C134: only commands that start transfers can take part in the end of the program:
    commands on the settings, and beacon commands, never end it, however they interleave *)
Lemma c134_safe : forall c jobs is, (forall j, In j jobs -> is_transfer j = false) -> rs_dead (rrun (begin c jobs) is) = false.
Proof.
  intros c jobs is A. destruct (run_inv jobs c is (begin c jobs) [] (begin_inv c jobs) eq_refl) as [[_ (b & i & (o & J & _) & _)]|[D _]]; [|exact D].
  apply nth_error_In in J. apply A in J. discriminate.
Qed.
(** C134: and they never block each other for good: while a goroutine has something left to
    do, one of them can go on *)
Lemma c134_progress : forall c jobs is i j,
  let s := rrun (begin c jobs) is in
  rs_dead s = false -> nth_error jobs i = Some j -> finished s i = false -> exists k s', rstep s k = Some s'.
Proof.
  intros c jobs is i j s D J F. destruct (run_inv jobs c is (begin c jobs) [] (begin_inv c jobs) eq_refl) as [[X _]|[_ I]]; [fold s in X; congruence|].
  cbn [app] in I. fold s in I. set (ord := finishing (begin c jobs) is) in *. clearbody ord.
  assert (GO : forall k a r d, nth_error (rs_work s) k = Some {| wk_todo := a :: r; wk_copy := d |} -> (a = ALock -> rs_lock s = None) -> exists s', rstep s k = Some s').
  { intros k a r d W A. unfold rstep. rewrite D, W. destruct a; try (eexists; reflexivity).
    - rewrite A by reflexivity. eexists; reflexivity.
    - destruct (rs_busy s); eexists; reflexivity.
    - destruct (rs_busy s); eexists; reflexivity.
    - destruct (rs_busy s); eexists; reflexivity.
    - destruct (cl_global (rs_set s)); eexists; reflexivity. }
  pose proof (i_lock _ _ _ _ I) as L. destruct (rs_lock s) as [h|] eqn:LS.
  - destruct L as (j' & d & r & J' & T' & W & _ & _ & B). exists h. destruct r as [|a r]; [eapply GO; [exact W|discriminate]|].
    eapply GO; [exact W|]. intros ->. destruct B as [[_ B]|[_ (k & v & r' & X & _)]]; discriminate.
  - exists i. destruct (nth_error_lt jobs (rs_work s) i j (eq_sym (i_len _ _ _ _ I)) J) as ([t d] & W).
    unfold finished in F. rewrite W in F. destruct t as [|a t]; [discriminate|]. eapply GO; [exact W|reflexivity].
Qed.
(** C134: each step is one of a number fixed at the start, so the goroutines come to an end *)
Lemma c134_ends : forall s i s', rstep s i = Some s' -> rs_dead s' = false ->
  list_sum (map (fun w => List.length (wk_todo w)) (rs_work s)) = S (list_sum (map (fun w => List.length (wk_todo w)) (rs_work s'))).
Proof.
  intros s i s' R D'. unfold rstep in R. destruct (rs_dead s); [discriminate|].
  destruct (nth_error (rs_work s) i) as [[[|a r] d]|] eqn:W; try discriminate.
  assert (S : exists d', rs_work s' = set_worker (rs_work s) i {| wk_todo := r; wk_copy := d' |}).
  { destruct a; repeat match type of R with context [match ?y with _ => _ end] => destruct y end; try discriminate; inversion R; subst s'; cbn [rs_work];
      try (cbn in D'; discriminate); eauto. }
  destruct S as (d' & ->). clear R D'. revert i W. generalize (rs_work s). induction l as [|w l IH]; intros [|i] W; cbn in W; try discriminate.
  - inversion W; subst. reflexivity.
  - cbn [map list_sum fold_right set_worker]. change (fold_right Nat.add 0%nat) with list_sum. specialize (IH i W). unfold list_sum in *. lia.
Qed.
Example c134_ex :
  let jobs := [JSetting ["checksum"; "md5"]; JSetting ["timestamp"; "32"]; JBeacon 2] in
  let is := [1; 1; 0; 1; 2; 1; 1; 0; 2; 0; 0; 2; 0; 0; 2; 2; 2; 2]%nat in
  let s := rrun (begin sar_cli jobs) is in
  rs_dead s = false /\ rs_lock s = None /\ finishing (begin sar_cli jobs) is = [1; 0; 2]%nat /\
  value (rs_set s) (Flag "csumtype") = KText "md5" /\ value (rs_set s) Stamp = KText "posix32" /\ rs_set s <> sar_cli.
Proof. vm_compute. repeat split. intros H. discriminate. Qed.

Lemma nth_begin : forall c jobs i j, nth_error jobs i = Some j -> nth_error (rs_work (begin c jobs)) i = Some {| wk_todo := program j; wk_copy := zero_cli |}.
Proof. intros c jobs i j J. cbn [begin rs_work]. now rewrite nth_error_map, J. Qed.

(** C135: changing the settings while a transfer starts can end the program: whatever the
    settings are, the program can die exactly if some command starts a transfer while some
    command sets a header flag *)
Lemma c135_dies : forall c jobs, cl_global c <> [] ->
  (exists is, rs_dead (rrun (begin c jobs) is) = true) <->
  (exists order, In (JTransfer order) jobs) /\ (exists ws f v, In (JSetting ws) jobs /\ sets_flag ws f v).
Proof.
  intros c jobs G. split.
  - intros (is & D). destruct (run_inv jobs c is (begin c jobs) [] (begin_inv c jobs) eq_refl) as [[_ (b & i & (o & J & C) & DB)]|[X _]]; [|congruence].
    split; [exists o; eapply nth_error_In; eauto|]. destruct C as [E|(h & j & k & v & J' & T & A)].
    + exfalso. destruct (cl_global c) as [|[f w] g] eqn:GC; [congruence|].
      assert (H : has f (rs_set (rrun (begin c jobs) b))).
      { eapply run_has; [apply begin_inv|reflexivity|]. unfold has. cbn [begin rs_set]. rewrite GC. cbn. rewrite String.eqb_refl. discriminate. }
      unfold has in H. rewrite E in H. apply H. reflexivity.
    + destruct (proj1 (body_acts j _ T A) k v eq_refl) as (ws & -> & S). exists ws, k, v. split; [eapply nth_error_In; eauto|exact S].
  - intros [(o & O) (ws & f & v & W & S)]. apply In_nth_error in O. apply In_nth_error in W. destruct O as (i & O). destruct W as (h & W).
    assert (N : i <> h) by congruence. destruct (sets_flag_body _ _ _ S) as (r & B & _).
    set (t := (take_members ++ [ANonempty])%list).
    exists (repeat i (List.length t) ++ [h; h; i])%list. rewrite rrun_app.
    set (o' := (flat_map (fun k => [ALook; ATakeGlobal k]) o ++ [ALook])%list).
    assert (P : exists o1, o' = ALook :: o1) by (unfold o'; destruct o; cbn; eauto). destruct P as (o1 & P).
    rewrite (alone_takes t o' (begin c jobs) i zero_cli); [| reflexivity | reflexivity | reflexivity | exact G | rewrite (nth_begin c jobs i _ O); reflexivity].
    unfold with_worker. cbn [begin rs_set rs_lock rs_busy rs_dead rs_work]. set (ws0 := map _ jobs).
    set (w := {| wk_todo := o'; wk_copy := _ |}). cbn [rrun]. 
    assert (X0 : nth_error (set_worker ws0 i w) h = Some {| wk_todo := (ALock :: AStore f v :: AStored f v :: r ++ [AUnlock])%list; wk_copy := zero_cli |}).
    { rewrite set_worker_other by exact N. unfold ws0. rewrite nth_error_map, W. cbn [option_map program]. rewrite B. reflexivity. }
    assert (X1 : nth_error (set_worker ws0 i w) i = Some w) by (eapply set_worker_same; unfold ws0; rewrite nth_error_map, O; reflexivity).
    set (u := set_worker ws0 i w) in *. clearbody u.
    unfold rstep at 3. cbn [rs_dead rs_work rs_set rs_lock rs_busy]. rewrite X0. cbn [rs_dead rs_work rs_set rs_lock rs_busy].
    set (w1 := {| wk_todo := AStore f v :: _; wk_copy := _ |}).
    assert (X2 : nth_error (set_worker u h w1) h = Some w1) by (eapply set_worker_same; eauto).
    unfold rstep at 2. cbn [rs_dead rs_work rs_set rs_lock rs_busy]. rewrite X2. unfold w1 at 1. cbn [rs_dead rs_work rs_set rs_lock rs_busy].
    unfold rstep. cbn [rs_dead rs_work rs_set rs_lock rs_busy]. rewrite !set_worker_other by congruence. rewrite X1. unfold w at 1. rewrite P. reflexivity.
Qed.
Lemma take_all_app : forall t1 t2 cs1 cs2 d, List.length cs1 = List.length t1 -> take_all (t1 ++ t2) (cs1 ++ cs2) d = take_all t2 cs2 (take_all t1 cs1 d).
Proof. induction t1 as [|a t1 IH]; intros t2 [|c cs1] cs2 d L; try discriminate; [reflexivity|]. cbn. apply IH. now inversion L. Qed.
Lemma members_taken : forall c1 c2 c3 c4 c5 c6 c7 c8 c9 c10 c11 c12 c13 c14 c15,
  take_all take_members [c1; c2; c3; c4; c5; c6; c7; c8; c9; c10; c11; c12; c13; c14; c15] zero_cli =
  {| cl_global := []; cl_v4 := cl_v4 c1; cl_v6 := cl_v4 c2; cl_port := cl_port c3; cl_timestamp := cl_timestamp c4;
     cl_timeout := {| to_metadata := to_metadata (cl_timeout c11); to_request := to_request (cl_timeout c12); to_status := to_status (cl_timeout c13);
       to_datacounter := to_datacounter (cl_timeout c15); to_transfer := to_transfer (cl_timeout c14); to_binterval := to_binterval (cl_timeout c10) |};
     cl_timezone := cl_timezone c5; cl_prompt := cl_prompt c6; cl_ppad := cl_ppad c7; cl_sardir := cl_sardir c8; cl_buffersize := cl_buffersize c9; cl_bcount := 0 |}.
Proof. intros. vm_compute. reflexivity. Qed.
(** C135: what a transfer's copy of the settings says: each setting has in it a value that it
    had at some moment of the run, except that the copy has the IPv4 group in place of the
    IPv6 group, and no count of beacons *)
Lemma c135_members : forall c jobs is i order d,
  let s := rrun (begin c jobs) is in
  nth_error jobs i = Some (JTransfer order) -> NoDup order -> (forall f, In f order <-> value c (Flag f) <> KNone) ->
  rs_dead s = false -> finished_with s i d ->
  value d Count = KNum 0 /\
  forall k, k <> Count -> exists m, at_some_moment (begin c jobs) is m /\ value d k = value m (match k with Group6 => Group4 | _ => k end).
Proof.
  intros c jobs is i order d s J ND KEYS D F.
  destruct (copy_moments is (begin c jobs) i _ _ d (nth_begin c jobs i _ J) D F) as (cs & L & M & E).
  cbn [program body] in L, E.
  do 15 (destruct cs as [|? cs]; [discriminate L|]).
  match type of E with _ = take_all _ (?c1 :: ?c2 :: ?c3 :: ?c4 :: ?c5 :: ?c6 :: ?c7 :: ?c8 :: ?c9 :: ?c10 :: ?c11 :: ?c12 :: ?c13 :: ?c14 :: ?c15 :: cs) _ =>
    change (c1 :: c2 :: c3 :: c4 :: c5 :: c6 :: c7 :: c8 :: c9 :: c10 :: c11 :: c12 :: c13 :: c14 :: c15 :: cs)
      with ([c1; c2; c3; c4; c5; c6; c7; c8; c9; c10; c11; c12; c13; c14; c15] ++ cs)%list in E end.
  rewrite take_all_app in E by reflexivity. rewrite members_taken in E. destruct cs as [|c16 cs]; [discriminate L|].
  unfold take_global in L, E. cbn [take_all take1] in E. rewrite app_length in L. cbn [List.length take_members plus] in L.
  match type of E with _ = take_all _ _ ?x => set (d0 := x) in E end.
  destruct (take_keys order cs d0) as (g & T & A & B); [lia|exact ND|]. rewrite T in E. subst d.
  assert (HAS : forall f m, In f order -> at_some_moment (begin c jobs) is m -> lookup f (cl_global m) <> None).
  { intros f m I (b & l & _ & <-). eapply run_has; [apply begin_inv|reflexivity|]. apply KEYS in I. cbn in I. unfold has. cbn.
    destruct (lookup f (cl_global c)); [discriminate|congruence]. }
  repeat match goal with H : Forall _ (_ :: _) |- _ => inversion H; clear H; subst end.
  match goal with H : Forall _ cs |- _ => rename H into FCS end.
  split; [reflexivity|]. intros k NK. destruct k; try congruence.
  - destruct (in_dec string_dec name order) as [I|NI].
    + destruct (A name I) as (m & Im & Lm). exists m. rewrite Forall_forall in FCS. split; [apply FCS; exact Im|].
      cbn [value with_global cl_global]. rewrite Lm. unfold global. pose proof (HAS name m I (FCS m Im)) as H.
      destruct (lookup name (cl_global m)); [reflexivity|congruence].
    + exists c. split; [exists [], is; split; reflexivity|]. cbn [value with_global cl_global]. rewrite (B name NI). cbn.
      specialize (KEYS name). cbn in KEYS. destruct (lookup name (cl_global c)); [|reflexivity]. exfalso. apply NI, KEYS. discriminate.
  - eexists; split; [|cbn; reflexivity]; assumption.
  - eexists; split; [|cbn; reflexivity]; assumption.
  - destruct (String.eqb_spec name "metadata") as [->|N1]; [eexists; split; [|cbn; reflexivity]; assumption|].
    destruct (String.eqb_spec name "request") as [->|N2]; [eexists; split; [|cbn; reflexivity]; assumption|].
    destruct (String.eqb_spec name "status") as [->|N3]; [eexists; split; [|cbn; reflexivity]; assumption|].
    destruct (String.eqb_spec name "transfer") as [->|N4]; [eexists; split; [|cbn; reflexivity]; assumption|].
    destruct (String.eqb_spec name "datacounter") as [->|N5]; [eexists; split; [|cbn; reflexivity]; assumption|].
    exists c. split; [exists [], is; split; reflexivity|]. cbn [value]. unfold timer. cbn [lookup].
    rewrite !(proj2 (String.eqb_neq _ _)) by congruence. reflexivity.
  - eexists; split; [|cbn; reflexivity]; assumption.
  - eexists; split; [|cbn; reflexivity]; assumption.
  - eexists; split; [|cbn; reflexivity]; assumption.
  - eexists; split; [|cbn; reflexivity]; assumption.
  - eexists; split; [|cbn; reflexivity]; assumption.
  - eexists; split; [|cbn; reflexivity]; assumption.
  - eexists; split; [|cbn; reflexivity]; assumption.
  - eexists; split; [|cbn; reflexivity]; assumption.
Qed.

Lemma take_by_app : forall t1 t2 c d, take_by (t1 ++ t2) c d = take_by t2 c (take_by t1 c d).
Proof. induction t1 as [|a t1 IH]; intros t2 c d; [reflexivity|]. cbn. apply IH. Qed.
Definition key_steps (order : list string) : list act := flat_map (fun k => [ALook; ATakeGlobal k]) order.
Lemma take_by_keys_in : forall order c d k, NoDup order -> In k order -> lookup k (cl_global (take_by (key_steps order) c d)) = Some (global c k).
Proof.
  assert (OUT : forall order c d k, ~ In k order -> lookup k (cl_global (take_by (key_steps order) c d)) = lookup k (cl_global d)).
  { induction order as [|x order IH]; intros c d k N; [reflexivity|]. cbn. rewrite IH by (intros X; apply N; right; exact X). cbn.
    apply update_lookup_other. intros ->. apply N. left; reflexivity. }
  induction order as [|x order IH]; intros c d k ND I; [destruct I|]. inversion ND; subst. cbn. destruct I as [<-|I]; [|now apply IH].
  fold (key_steps order). rewrite OUT by assumption. cbn. apply update_lookup_same.
Qed.
Lemma take_by_keys_out : forall order c d k, ~ In k order -> lookup k (cl_global (take_by (key_steps order) c d)) = lookup k (cl_global d).
Proof.
  induction order as [|x order IH]; intros c d k N; [reflexivity|]. cbn. fold (key_steps order). rewrite IH by (intros X; apply N; right; exact X). cbn.
  apply update_lookup_other. intros ->. apply N. left; reflexivity.
Qed.
Lemma takes_keys : forall order, forallb takes (key_steps order) = true.
Proof. induction order; [reflexivity|]. cbn. exact IHorder. Qed.
Lemma effect_global : forall r c, (forall k v, ~ In (AStored k v) r) -> (forall g, In (ASet g) r -> forall c, cl_global (g c) = cl_global c) ->
  cl_global (effect r c) = cl_global c.
Proof.
  induction r as [|a r IH]; intros c N1 N2; [reflexivity|]. cbn. rewrite IH.
  - destruct a; try reflexivity; [exfalso; eapply N1; left; reflexivity|]. cbn. apply N2. left; reflexivity.
  - intros k v I. eapply N1. right; exact I.
  - intros g I. apply N2. right; exact I.
Qed.
Lemma after_sets_flag : forall ws f v c, sets_flag ws f v -> cl_global (after_job (JSetting ws) c) = update f v (cl_global c).
Proof.
  intros ws f v c S. rewrite <- body_effect by reflexivity. destruct (sets_flag_body _ _ _ S) as (r & B & NS).
  assert (G : forall g, In (ASet g) r -> forall c, cl_global (g c) = cl_global c).
  { intros g I. refine (proj2 (body_acts (JSetting ws) (ASet g) eq_refl _) g eq_refl). rewrite B. right; right; exact I. }
  rewrite B. cbn [effect effect1]. rewrite effect_global by assumption. reflexivity.
Qed.
Lemma sets_flag_frame : forall ws f v k, sets_flag ws f v -> k <> f ->
  (forall w, ~ In (AStored k w) (program (JSetting ws))) /\ (forall g, In (ASet g) (program (JSetting ws)) -> forall c, cl_global (g c) = cl_global c).
Proof.
  intros ws f v k S N. split.
  - intros w I. apply in_body_setting in I; [|reflexivity]. destruct I as [I|[I|I]]; try discriminate.
    destruct (sets_flag_body _ _ _ S) as (r & B & NS). rewrite B in I. destruct I as [I|[I|I]]; [discriminate|congruence|]. eapply NS; eauto.
  - intros g I. apply in_body_setting in I; [|reflexivity]. destruct I as [I|[I|I]]; try discriminate.
    exact (proj2 (body_acts (JSetting ws) (ASet g) eq_refl I) g eq_refl).
Qed.
Lemma finishing_repeat : forall n s i, finishing s (repeat i n) = if negb (finished s i) && finished (rrun s (repeat i n)) i then [i] else [].
Proof.
  induction n as [|n IH]; intros s i; [cbn; now destruct (finished s i)|]. cbn [repeat finishing rrun]. destruct (rstep s i) as [s'|] eqn:R; [|apply IH].
  rewrite IH. destruct (finished s i) eqn:F.
  - rewrite (finished_stays _ _ _ _ R F). reflexivity.
  - cbn. destruct (finished s' i) eqn:F'; [rewrite (finished_run _ _ _ F'); reflexivity|reflexivity].
Qed.
Lemma update_not_nil : forall {A} k (v : A) l, update k v l <> [].
Proof. intros A k v [|[x y] l]; cbn; [discriminate|]. destruct (String.eqb k x); discriminate. Qed.
(** C135: so two commands may be given one after the other, and a transfer that starts
    meanwhile work with the second setting but not with the first, though the settings were
    never so *)
Lemma c135_mixed : forall c w1 w2 k1 k2 v1 v2 x1 x2 o1 o2 o3,
  sets_flag w1 k1 v1 -> sets_flag w2 k2 v2 -> k1 <> k2 ->
  value c (Flag k1) = KText x1 -> value c (Flag k2) = KText x2 -> x1 <> v1 -> x2 <> v2 ->
  NoDup (o1 ++ k1 :: o2 ++ k2 :: o3) ->
  let jobs := [JSetting w1; JSetting w2; JTransfer (o1 ++ k1 :: o2 ++ k2 :: o3)] in
  exists is d, let s := rrun (begin c jobs) is in
    rs_dead s = false /\ finishing (begin c jobs) is = [0; 1; 2]%nat /\ finished_with s 2 d /\
    value d (Flag k1) = KText x1 /\ value d (Flag k2) = KText v2 /\
    forall m, at_some_moment (begin c jobs) is m -> ~ (value m (Flag k1) = KText x1 /\ value m (Flag k2) = KText v2).
Proof.
  intros c w1 w2 k1 k2 v1 v2 x1 x2 o1 o2 o3 S1 S2 NK V1 V2 D1 D2 ND jobs.
  assert (G : cl_global c <> []) by (cbn in V1; destruct (cl_global c); [discriminate|discriminate]).
  set (c1 := after_job (JSetting w1) c). set (c2 := after_job (JSetting w2) c1).
  assert (E1 : cl_global c1 = update k1 v1 (cl_global c)) by (now apply after_sets_flag).
  assert (E2 : cl_global c2 = update k2 v2 (cl_global c1)) by (now apply after_sets_flag).
  set (t1 := (take_members ++ ANonempty :: key_steps (o1 ++ [k1]))%list).
  set (t2 := (key_steps (o2 ++ k2 :: o3) ++ [ALook])%list).
  assert (P : program (JTransfer (o1 ++ k1 :: o2 ++ k2 :: o3)) = (t1 ++ t2)%list).
  { cbn [program body]. unfold t1, t2, take_global, key_steps. rewrite <- !app_assoc. f_equal. cbn [app]. f_equal.
    replace (o1 ++ k1 :: o2 ++ k2 :: o3)%list with ((o1 ++ [k1]) ++ o2 ++ k2 :: o3)%list by (now rewrite <- app_assoc).
    rewrite flat_map_app, <- app_assoc. reflexivity. }
  assert (T1 : forallb takes t1 = true) by (unfold t1; rewrite forallb_app; cbn [forallb takes]; rewrite takes_keys; reflexivity).
  assert (T2 : forallb takes t2 = true) by (unfold t2; rewrite forallb_app; cbn [forallb takes]; rewrite takes_keys; reflexivity).
  set (i1 := repeat 2%nat (List.length t1)). set (i2 := repeat 0%nat (List.length (program (JSetting w1)))).
  set (i3 := repeat 1%nat (List.length (program (JSetting w2)))). set (i4 := repeat 2%nat (List.length t2)).
  set (d1 := take_by t1 c zero_cli). set (d := take_by t2 c2 d1).
  set (s0 := begin c jobs).
  assert (W2 : nth_error (rs_work s0) 2 = Some {| wk_todo := (t1 ++ t2)%list; wk_copy := zero_cli |}) by (rewrite <- P; reflexivity).
  assert (R1 : rrun s0 i1 = with_worker s0 2 {| wk_todo := t2; wk_copy := d1 |}) by (apply (alone_takes t1 t2 s0 2 zero_cli T1 eq_refl eq_refl G W2)).
  set (s1 := with_worker s0 2 {| wk_todo := t2; wk_copy := d1 |}) in *.
  assert (R2 : rrun s1 i2 = after_alone s1 0 c1 zero_cli) by (apply alone_job; reflexivity).
  set (s2 := after_alone s1 0 c1 zero_cli) in *.
  assert (R3 : rrun s2 i3 = after_alone s2 1 c2 zero_cli) by (apply alone_job; reflexivity).
  set (s3 := after_alone s2 1 c2 zero_cli) in *.
  assert (G2 : cl_global (rs_set s3) <> []) by (cbn [s3 after_alone rs_set]; rewrite E2; apply update_not_nil).
  assert (W3 : nth_error (rs_work s3) 2 = Some {| wk_todo := (t2 ++ [])%list; wk_copy := d1 |}) by (rewrite app_nil_r; reflexivity).
  assert (R4 : rrun s3 i4 = with_worker s3 2 {| wk_todo := []; wk_copy := d |}) by (apply (alone_takes t2 [] s3 2 d1 T2 eq_refl eq_refl G2 W3)).
  assert (R : rrun s0 (i1 ++ i2 ++ i3 ++ i4) = with_worker s3 2 {| wk_todo := []; wk_copy := d |}) by (rewrite !rrun_app, R1, R2, R3; exact R4).
  assert (NDa : NoDup (o1 ++ [k1]) /\ NoDup (o2 ++ k2 :: o3) /\ ~ In k1 (o2 ++ k2 :: o3)).
  { replace (o1 ++ k1 :: o2 ++ k2 :: o3)%list with ((o1 ++ [k1]) ++ (o2 ++ k2 :: o3))%list in ND by (now rewrite <- app_assoc).
    assert (X : forall (a b : list string), NoDup (a ++ b) -> NoDup a /\ NoDup b /\ forall z, In z a -> ~ In z b).
    { induction a as [|z a IH]; intros b H; [repeat split; [constructor|exact H|intros z []]|]. inversion H; subst. destruct (IH b H3) as (A & B & C).
      repeat split; auto; [constructor; auto; intros I; apply H2; apply in_or_app; auto|].
      intros y [<-|I] J; [apply H2; apply in_or_app; auto|eapply C; eauto]. }
    destruct (X _ _ ND) as (A & B & C). repeat split; auto. apply C. apply in_or_app. right; left; reflexivity. }
  destruct NDa as (NA & NB & NC).
  exists (i1 ++ i2 ++ i3 ++ i4)%list, d. cbv zeta. fold s0. rewrite R. split; [reflexivity|]. split.
  - rewrite !finishing_app, R1, R2, R3. unfold i1, i2, i3, i4. rewrite !finishing_repeat. fold i1 i2 i3 i4. rewrite R1, R2, R3, R4.
    assert (F2 : exists a t, t2 = a :: t) by (unfold t2, key_steps; destruct o2; cbn; eauto). destruct F2 as (a2 & t2' & F2).
    cbn. rewrite F2. reflexivity.
  - split; [reflexivity|]. split; [|split].
    + cbn [value]. unfold d, t2. rewrite take_by_app. cbn [take_by take1]. rewrite take_by_keys_out by exact NC.
      unfold d1, t1. rewrite take_by_app. cbn [take_by take1]. rewrite take_by_keys_in; [|exact NA|apply in_or_app; right; left; reflexivity].
      unfold global. cbn in V1. destruct (lookup k1 (cl_global c)); congruence.
    + cbn [value]. unfold d, t2. rewrite take_by_app. cbn [take_by take1]. rewrite take_by_keys_in; [|exact NB|apply in_or_app; right; left; reflexivity].
      unfold global. rewrite E2, update_lookup_same. reflexivity.
    + intros m M [A B]. cbn in A, B.
      assert (K1 : lookup k1 (cl_global c) = Some x1) by (cbn in V1; destruct (lookup k1 (cl_global c)); congruence).
      assert (K2 : lookup k2 (cl_global c) = Some x2) by (cbn in V2; destruct (lookup k2 (cl_global c)); congruence).
      assert (A' : lookup k1 (cl_global m) = Some x1) by (destruct (lookup k1 (cl_global m)); congruence).
      assert (B' : lookup k2 (cl_global m) = Some v2) by (destruct (lookup k2 (cl_global m)); congruence).
      apply moment_app in M. destruct M as [M|M].
      { eapply (moment_takes _ (t1 ++ t2)) in M; [|rewrite forallb_app, T1, T2; reflexivity|reflexivity|reflexivity|exact G|exact W2].
        subst m. cbn in B'. congruence. }
      rewrite R1 in M. apply moment_app in M. destruct M as [M|M].
      { destruct (sets_flag_frame w1 k1 v1 k2 S1) as [N1 N2]; [congruence|].
        apply (moment_frame _ (program (JSetting w1)) s1 0 zero_cli m k2 N1 N2 eq_refl) in M. cbn in M. congruence. }
      rewrite R2 in M. apply moment_app in M. destruct M as [M|M].
      { destruct (sets_flag_frame w2 k2 v2 k1 S2) as [N1 N2]; [congruence|].
        apply (moment_frame _ (program (JSetting w2)) s2 1 zero_cli m k1 N1 N2 eq_refl) in M. cbn [s2 after_alone rs_set] in M.
        rewrite E1, update_lookup_same in M. congruence. }
      rewrite R3 in M. rewrite app_nil_r in W3. eapply (moment_takes _ t2) in M; [|exact T2|reflexivity|reflexivity|exact G2|exact W3].
      subst m. cbn [s3 after_alone rs_set] in A'. rewrite E2, update_lookup_other, E1, update_lookup_same in A' by congruence. congruence.
Qed.

Example c135_ex :
  let keys := map fst (cl_global sar_cli) in
  sets_flag ["checksum"; "md5"] "csumtype" "md5" /\ sets_flag ["descriptor"; "d16"] "descriptor" "d16" /\
  In "csumtype" keys /\ In "descriptor" keys /\ NoDup keys /\
  value sar_cli (Flag "csumtype") <> KText "md5" /\ value sar_cli (Flag "descriptor") <> KText "d16" /\
  (let jobs := [JSetting ["checksum"; "md5"]; JTransfer keys] in
   rs_dead (rrun (begin sar_cli jobs) (repeat 1%nat 16 ++ [0; 0; 1]%nat)) = true /\
   exists d, finished_with (rrun (begin sar_cli jobs) (repeat 1%nat 60 ++ repeat 0%nat 9)) 1 d /\ value d (Flag "csumtype") = value sar_cli (Flag "csumtype") /\
     value d Group6 = value sar_cli Group4).
Proof.
  repeat split; try (vm_compute; congruence).
  - exists "checksum", "md5", [(Flag "csumtype", "md5")]. split; [reflexivity|]. split; [unfold choices; repeat (first [left; reflexivity|right])|left; reflexivity].
  - exists "descriptor", "d16", [(Flag "descriptor", "d16")]. split; [reflexivity|]. split; [unfold choices; repeat (first [left; reflexivity|right])|left; reflexivity].
  - vm_compute. repeat (first [left; reflexivity|right]).
  - vm_compute. repeat (first [left; reflexivity|right]).
  - vm_compute. repeat (constructor; [intros X; repeat (destruct X as [X|X]; [discriminate|]); exact X|]). constructor.
  - eexists. split; [vm_compute; reflexivity|]. split; vm_compute; reflexivity.
Qed.
