(** * Mutexes: no deadlock *)

From Coq Require Import List Bool Arith Lia.
From Verif Require Import Locks SpecLocks LocksFacts.
Import ListNotations.

(** C143: every function leaves the mutexes as it found them, on every path: what it has locked it has unlocked as often when
    it returns, and before it waits forever *)
Lemma c143_balanced : forall f t ds fl m, exec (Call f) t ds fl -> locks m t = unlocks m t.
Proof.
  intros f t ds fl m X. pose proof (check_sound _ _ _ _ X _ _ _ _ (function_check f)) as K.
  assert (HG : forall t h h', run_acts h t = Some h' -> ~ In Hang t \/ exists u, t = u ++ [Hang] /\ ~ In Hang u).
  { clear. induction t as [|a t IH]; intros h h' R; [left; tauto|]. destruct a as [m|m|]; cbn in R.
    - destruct (may_lock h m); [|discriminate]. destruct (IH _ _ R) as [N|(u & -> & N)]; [left; intros [H|H]; [discriminate|auto]|right; exists (Acq m :: u); split; [reflexivity|]; intros [H|H]; [discriminate|auto]].
    - destruct h as [|x h]; [discriminate|]. destruct (mutex_eq_dec m x); [|discriminate].
      destruct (IH _ _ R) as [N|(u & -> & N)]; [left; intros [H|H]; [discriminate|auto]|right; exists (Rel m :: u); split; [reflexivity|]; intros [H|H]; [discriminate|auto]].
    - destruct h, t; try discriminate. right. exists []. split; [reflexivity|tauto]. }
  assert (B : forall t, run_acts [] t = Some [] -> locks m t = unlocks m t).
  { intros t0 R. destruct (HG _ _ _ R) as [N|(u & -> & N)].
    - pose proof (run_counts m _ _ _ N R). cbn in *. lia.
    - rewrite run_acts_app in R by exact N. destruct (run_acts [] u) as [h|] eqn:E; [|discriminate]. cbn in R. destruct h; [|discriminate].
      pose proof (run_counts m _ _ _ N E) as C. unfold locks, unlocks in *. rewrite !filter_app, !app_length. cbn in *. lia. }
  destruct fl; cbn in K.
  - destruct K as (st & E & _ & R & _). injection E as <-. auto.
  - inversion X.
  - auto.
Qed.
(** C143: a mutex is never unlocked while it is not locked *)
Lemma c143_alive : forall s, occurs s -> l_dead s = false.
Proof. intros s O. apply (i_alive _ (occurs_inv _ O)). Qed.
(** C143: a goroutine that is about to unlock a mutex is the one inside it, and the mutex is locked *)
Lemma c143_unlock : forall s i m d r, occurs s -> nth_error (l_threads s) i = Some {| t_done := d; t_todo := Rel m :: r |} ->
  inside m {| t_done := d; t_todo := Rel m :: r |} /\ l_locked s m = true.
Proof.
  intros s i m d r O T. pose proof (occurs_inv _ O) as [A G L U]. destruct (G _ _ T) as (h & GT).
  assert (I : In m h).
  { destruct GT as (_ & _ & R & _). cbn in R. destruct h as [|x h]; [discriminate|]. destruct (mutex_eq_dec m x); [subst; now left|discriminate]. }
  split; [eapply goes_inside; eauto|]. apply L. exists i, {| t_done := d; t_todo := Rel m :: r |}, h. auto.
Qed.
(** C143: no two goroutines are inside the same mutex; it is locked exactly while one is *)
Lemma c143_exclusive : forall s m, occurs s ->
  (forall i j t u, nth_error (l_threads s) i = Some t -> nth_error (l_threads s) j = Some u -> inside m t -> inside m u -> i = j) /\
  (l_locked s m = true <-> exists i t, nth_error (l_threads s) i = Some t /\ inside m t).
Proof.
  intros s m O. pose proof (occurs_inv _ O) as [A G L U]. split.
  - intros i j t u T V I J. destruct (G _ _ T) as (h & GT). destruct (G _ _ V) as (g & GU). eapply (U m); eauto; eapply goes_inside; eauto.
  - rewrite L. split.
    + intros (i & t & h & T & GT & I). exists i, t. split; [exact T|]. eapply goes_inside; eauto.
    + intros (i & t & T & I). destruct (G _ _ T) as (h & GT). exists i, t, h. split; [exact T|]. split; [exact GT|]. eapply goes_inside; eauto.
Qed.

Lemma smu_frees : forall s, linv s -> l_locked s Smu = true ->
  exists k d r h, nth_error (l_threads s) k = Some {| t_done := d; t_todo := Rel Smu :: r |} /\ goes {| t_done := d; t_todo := Rel Smu :: r |} (Smu :: h) /\ ~ In Climu (Smu :: h).
Proof.
  intros s [A G L U] LK. apply L in LK. destruct LK as (k & [d todo] & h & T & GT & I).
  destruct (holder_next _ _ _ GT) as [(m & r & h' & -> & ->)|(r & -> & ->)].
  - intros ->. destruct I.
  - assert (S : shape (m :: h')) by apply GT. assert (m = Smu) as ->.
    { inversion S; subst; [destruct I as [I|[]]; auto|reflexivity]. }
    exists k, d, r, h'. split; [exact T|]. split; [exact GT|]. inversion S; subst; cbn; intuition discriminate.
  - destruct I as [I|[]]. discriminate.
Qed.
(** C143: no deadlock: as long as some goroutine is neither finished nor waiting forever for something other than a mutex, one of them
    can move on *)
Lemma c143_progress : forall s, occurs s -> (exists i, lstep s i <> None) \/
  (forall t, In t (l_threads s) -> finished t \/ hangs t) /\ forall m, l_locked s m = false.
Proof.
  intros s O. pose proof (occurs_inv _ O) as I. pose proof I as [A G L U].
  destruct (forallb (fun t => match t_todo t with [] | Hang :: _ => true | _ => false end) (l_threads s)) eqn:F.
  - right. rewrite forallb_forall in F.
    assert (D : forall t, In t (l_threads s) -> finished t \/ hangs t).
    { intros t J. specialize (F _ J). unfold finished, hangs. destruct (t_todo t) as [|[m|m|] r]; try discriminate; eauto. }
    split; [exact D|]. intros m. destruct (l_locked s m) eqn:LK; [|reflexivity]. exfalso. apply L in LK. destruct LK as (i & [d todo] & h & T & GT & J).
    apply nth_error_In in T. destruct (holder_next _ _ _ GT) as [(x & r & h' & -> & ->)|(r & -> & ->)]; [intros ->; destruct J| |];
      (destruct (D _ T) as [E|(q & E)]; discriminate).
  - left.
    assert (W : exists i d a r, nth_error (l_threads s) i = Some {| t_done := d; t_todo := a :: r |} /\ a <> Hang).
    { clear - F. induction (l_threads s) as [|[d todo] l IH]; [discriminate|]. cbn in F. destruct todo as [|[m|m|] r]; cbn in F.
      - destruct (IH F) as (i & W). exists (S i). exact W.
      - exists 0, d, (Acq m), r. split; [reflexivity|discriminate].
      - exists 0, d, (Rel m), r. split; [reflexivity|discriminate].
      - destruct (IH F) as (i & W). exists (S i). exact W. }
    destruct W as (i & d & a & r & T & NH). destruct (G _ _ T) as (h & GT).
    assert (REL : forall i d m r, nth_error (l_threads s) i = Some {| t_done := d; t_todo := Rel m :: r |} -> exists i, lstep s i <> None).
    { intros i' d' m' r' T'. exists i'. unfold lstep. rewrite T'. destruct (l_locked s m'); discriminate. }
    assert (ACQ : forall i d m r, nth_error (l_threads s) i = Some {| t_done := d; t_todo := Acq m :: r |} -> l_locked s m = false -> exists i, lstep s i <> None).
    { intros i' d' m' r' T' LK. exists i'. unfold lstep. rewrite T', LK. discriminate. }
    destruct a as [m|m|]; [|eauto|congruence].
    destruct (l_locked s m) eqn:LK; [|eauto]. apply L in LK. destruct LK as (j & [d' todo] & g & T' & GT' & J).
    destruct (holder_next _ _ _ GT') as [(x & r' & h' & -> & ->)|(r' & -> & ->)]; [intros ->; destruct J|eauto|].
    destruct (l_locked s Smu) eqn:LS; [|eauto]. destruct (smu_frees _ I LS) as (k & d'' & r'' & h'' & T'' & _). eauto.
Qed.

Definition left_over (s : lstate) : nat := list_sum (map (fun t => List.length (t_todo t)) (l_threads s)).
Lemma left_put : forall i d a r ts, nth_error ts i = Some {| t_done := d; t_todo := a :: r |} ->
  list_sum (map (fun t => List.length (t_todo t)) (put_thread i {| t_done := d ++ [a]; t_todo := r |} ts)) < list_sum (map (fun t => List.length (t_todo t)) ts).
Proof.
  induction i as [|i IH]; intros d a r ts T; (destruct ts as [|t ts]; [discriminate|]); cbn in T; cbn [put_thread map list_sum fold_right].
  - injection T as ->. unfold list_sum. cbn. lia.
  - specialize (IH _ _ _ _ T). unfold list_sum in *. cbn. lia.
Qed.
Lemma left_step : forall s i s', lstep s i = Some s' -> left_over s' < left_over s.
Proof.
  intros s i s' E. unfold lstep in E. destruct (nth_error (l_threads s) i) as [[d [|a r]]|] eqn:T; try discriminate.
  destruct a as [m|m|]; [destruct (l_locked s m)|destruct (l_locked s m)|]; try discriminate; injection E as <-; unfold left_over; cbn [l_threads]; eapply left_put; eauto.
Qed.
(** C143: from every state the goroutines can all come to their ends, or to the places where they wait forever; then no mutex is locked *)
Lemma c143_ends : forall s, occurs s -> exists is, let s' := lrun s is in
  (forall t, In t (l_threads s') -> finished t \/ hangs t) /\ forall m, l_locked s' m = false.
Proof.
  intros s. remember (left_over s) as n eqn:E. revert s E. induction n as [n IH] using lt_wf_ind. intros s -> O.
  destruct (c143_progress s O) as [(i & S)|D]; [|exists []; exact D]. destruct (lstep s i) as [s'|] eqn:E; [|congruence].
  destruct (IH (left_over s')) with (s := s') as (is & D); auto.
  - eapply left_step; eauto.
  - replace s' with (lrun s [i]) by (cbn; now rewrite E). now apply occurs_run.
  - exists (i :: is). cbn. rewrite E. exact D.
Qed.

Lemma smu_steps : forall s, linv s -> l_locked s Smu = true -> exists k s', lstep s k = Some s' /\ l_locked s' Smu = false /\
  (forall t, nth_error (l_threads s) k = Some t -> inside Smu t /\ ~ inside Climu t) /\
  (forall j, j <> k -> nth_error (l_threads s') j = nth_error (l_threads s) j).
Proof.
  intros s I LK. destruct (smu_frees _ I LK) as (k & d & r & h & T & GT & NC). destruct (step_release _ _ _ _ _ T LK) as (s' & E & LF & _ & OT & _).
  exists k, s'. split; [exact E|]. split; [exact LF|]. split; [|exact OT]. intros t T'. rewrite T in T'. injection T' as <-. split.
  - apply (goes_inside _ _ _ GT). now left.
  - intros X. apply (goes_inside _ _ _ GT) in X. contradiction.
Qed.
Lemma frees : forall n s m i d todo h, linv s -> m <> Climu -> List.length todo <= n -> nth_error (l_threads s) i = Some {| t_done := d; t_todo := todo |} ->
  goes {| t_done := d; t_todo := todo |} h -> In m h -> exists is, without Climu s is /\ l_locked (lrun s is) m = false.
Proof.
  induction n as [|n IH]; intros s m i d todo h I NC LE T GT IM; pose proof I as [A G L U].
  - destruct todo; [|cbn in LE; lia]. destruct GT as (_ & _ & R & _). injection R as ->. destruct IM.
  - assert (NCI : ~ In Climu h). { assert (S : shape h) by apply GT. intros X. inversion S; subst; cbn in *; intuition congruence. }
    assert (NI : forall t, nth_error (l_threads s) i = Some t -> ~ inside Climu t).
    { intros t T'. rewrite T in T'. injection T' as <-. intros X. apply (goes_inside _ _ _ GT) in X. contradiction. }
    destruct (holder_next _ _ _ GT) as [(x & r & h' & -> & ->)|(r & -> & ->)]; [intros ->; destruct IM| |].
    + assert (LX : l_locked s x = true). { apply L. eexists i, _, (x :: h'). split; [exact T|]. split; [exact GT|]. now left. }
      destruct (step_release _ _ _ _ _ T LX) as (s' & E & LF & T' & OT & _). destruct (mutex_eq_dec x m) as [->|NX].
      * exists [i]. split; [split; [exact NI|]; exists s'; split; [exact E|exact Logic.I]|]. cbn. now rewrite E.
      * destruct (goes_step _ _ _ _ GT) as (g & GT' & EH); [discriminate|]. injection EH as ->.
        destruct (IH s' m i (d ++ [Rel x]) r g) as (is & W & LM); auto.
        -- eapply linv_step; eauto.
        -- cbn in LE. lia.
        -- destruct IM as [IM|IM]; [congruence|exact IM].
        -- exists (i :: is). split; [split; [exact NI|]; exists s'; auto|]. cbn. now rewrite E.
    + destruct IM as [<-|[]].
      assert (GO : forall s0, linv s0 -> nth_error (l_threads s0) i = Some {| t_done := d; t_todo := Acq Smu :: r |} -> l_locked s0 Smu = false ->
        exists is, without Climu s0 is /\ l_locked (lrun s0 is) Trmu = false).
      { intros s0 I0 T0 F0. destruct (step_take _ _ _ _ _ T0 F0) as (s' & E & T' & OT & _). destruct (goes_step _ _ _ _ GT) as (g & GT' & -> & _); [discriminate|].
        destruct (IH s' Trmu i (d ++ [Acq Smu]) r [Smu; Trmu]) as (is & W & LM); auto.
        - eapply linv_step; eauto.
        - cbn in LE. lia.
        - cbn. tauto.
        - exists (i :: is). split; [split; [|exists s'; auto]|cbn; now rewrite E].
          intros t T1. rewrite T0 in T1. injection T1 as <-. intros X. apply (goes_inside _ _ _ GT) in X. contradiction. }
      destruct (l_locked s Smu) eqn:LS; [|apply GO; auto].
      destruct (smu_steps _ I LS) as (k & s' & E & LF & NK & OT).
      assert (K : i <> k).
      { intros ->. destruct (NK _ T) as (X & _). apply (goes_inside _ _ _ GT) in X. destruct X as [X|[]]. discriminate. }
      destruct (GO s') as (is & W & LM); auto; [eapply linv_step; eauto|rewrite OT by exact K; exact T|].
      exists (k :: is). split; [split; [intros t T1; apply (NK _ T1)|exists s'; auto]|cbn; now rewrite E].
Qed.
(** C143: a mutex other than that of the settings becomes free without a step of a goroutine that is inside that of the settings: a [beacon]
    command that is at work for hours holds up the settings and nothing else *)
Lemma c143_apart : forall s m, occurs s -> m <> Climu -> exists is, without Climu s is /\ l_locked (lrun s is) m = false.
Proof.
  intros s m O NC. pose proof (occurs_inv _ O) as I. destruct (l_locked s m) eqn:LK; [|exists []; split; [exact Logic.I|exact LK]].
  apply (i_locked _ I) in LK. destruct LK as (i & [d todo] & h & T & GT & IM). eapply frees; eauto.
Qed.
(** C143: nobody waits inside another mutex than Trmu, and there only for the one of the session numbers *)
Lemma c143_order : forall s i t m m' r, occurs s -> nth_error (l_threads s) i = Some t -> inside m t -> t_todo t = Acq m' :: r -> m = Trmu /\ m' = Smu.
Proof.
  intros s i [d todo] m m' r O T IM E. cbn in E. subst todo. destruct (i_goes _ (occurs_inv _ O) _ _ T) as (h & GT). apply (goes_inside _ _ _ GT) in IM.
  destruct (holder_next _ _ _ GT) as [(x & r' & h' & EQ & _)|(r' & EQ & ->)]; [intros ->; destruct IM|discriminate|]. injection EQ as -> ->. destruct IM as [<-|[]]. auto.
Qed.

(** Three goroutines: a transfer is added, a session number is made, the settings are changed.  With the two mutexes in opposite
    order two goroutines would wait for each other. *)
Example c143_ex :
  let ts := [[Acq Trmu; Acq Smu; Rel Smu; Rel Trmu; Hang]; [Acq Smu; Rel Smu]; [Acq Climu; Rel Climu; Acq Climu; Rel Climu]] in
  program ts /\
  (let s := lrun (lstart ts) [1; 0; 2] in lstep s 0 = None /\ lstep s 1 <> None /\ l_locked s Trmu = true) /\
  (let s := lrun (lstart [[Acq Trmu; Acq Smu; Rel Smu; Rel Trmu]; [Acq Smu; Acq Trmu; Rel Trmu; Rel Smu]]) [0; 1] in lstep s 0 = None /\ lstep s 1 = None).
Proof.
  cbv zeta. split; [|split; [vm_compute; repeat split; discriminate|vm_compute; split; reflexivity]].
  assert (S : exec (Call NewSession) [Acq Smu; Rel Smu] [] Next).
  { apply (ex_call NewSession [Acq Smu] [Smu] Back); [|discriminate]. cbn.
    apply (ex_seq (Lock Smu) (Seq (DeferUnlock Smu) Return) [Acq Smu] [] [] [Smu] Back); [constructor|].
    apply (ex_seq (DeferUnlock Smu) Return [] [] [Smu] [] Back); constructor. }
  assert (N : exec (Call NewInitiator) [Acq Trmu; Acq Smu; Rel Smu; Rel Trmu] [] Next).
  { apply (ex_call NewInitiator [Acq Trmu; Acq Smu; Rel Smu] [Trmu] Back); [|discriminate]. cbn.
    eapply (ex_seq _ _ [] _ [] [Trmu] Back); [apply ex_loop_done|].
    apply (ex_seq (Lock Trmu) _ [Acq Trmu] [Acq Smu; Rel Smu] [] [Trmu] Back); [constructor|].
    apply (ex_seq (DeferUnlock Trmu) _ [] [Acq Smu; Rel Smu] [Trmu] [] Back); [constructor|].
    apply (ex_seq (Call NewSession) _ [Acq Smu; Rel Smu] [] [] [] Back); [exact S|constructor]. }
  assert (C : exec (Call Setting) [Acq Climu; Rel Climu] [] Next).
  { apply (ex_call Setting [Acq Climu] [Climu] Back); [|discriminate]. cbn.
    apply (ex_seq (Lock Climu) _ [Acq Climu] [] [] [Climu] Back); [constructor|].
    apply (ex_seq (DeferUnlock Climu) _ [] [] [Climu] [] Back); [constructor|]. apply ex_left. constructor. }
  intros t [<-|[<-|[<-|[]]]].
  - exists [Push]. apply calls_stuck. apply (ex_call_stuck Push _ []). cbn. apply ex_left.
    apply (ex_seq (Call NewInitiator) _ [Acq Trmu; Acq Smu; Rel Smu; Rel Trmu] [Hang] [] [] Stuck); [exact N|]. apply ex_left. apply ex_seq_end; [constructor|discriminate].
  - exists [NewSession]. apply (calls_one _ _ [Acq Smu; Rel Smu] []); [exact S|constructor].
  - exists [Setting; Setting]. apply (calls_one _ _ [Acq Climu; Rel Climu] [Acq Climu; Rel Climu]); [exact C|]. apply (calls_one _ _ [Acq Climu; Rel Climu] []); [exact C|constructor].
Qed.
