(** * Facts about mutexes *)

From Coq Require Import List Bool Arith Lia.
From Verif Require Import Locks SpecLocks.
Import ListNotations.

(** ** The discipline: a second mutex is locked only while Trmu is held, and it is Smu *)

Definition may_lock (h : list mutex) (m : mutex) : bool :=
  match h with [] => true | [Trmu] => if mutex_eq_dec m Smu then true else false | _ => false end.
(** [run_acts h t]: the mutexes held after [t], if the discipline is kept.  Unlocks are of the mutex locked last. *)
Fixpoint run_acts (h : list mutex) (t : list act) : option (list mutex) :=
  match t with
  | [] => Some h
  | Acq m :: r => if may_lock h m then run_acts (m :: h) r else None
  | Rel m :: r => match h with x :: h' => if mutex_eq_dec m x then run_acts h' r else None | [] => None end
  | Hang :: r => match h, r with [], [] => Some [] | _, _ => None end
  end.
Lemma run_acts_app : forall a b h, ~ In Hang a -> run_acts h (a ++ b) = match run_acts h a with Some h' => run_acts h' b | None => None end.
Proof.
  induction a as [|x a IH]; intros b h N; [reflexivity|]. assert (N' : ~ In Hang a) by (intros I; apply N; now right).
  destruct x; cbn [app run_acts].
  - destruct (may_lock h m); auto.
  - destruct h; auto. destruct (mutex_eq_dec m m0); auto.
  - exfalso. apply N. now left.
Qed.

(** ** A checker for the bodies *)

(** Held mutexes and deferred unlocks before; the same after, if the next statement can follow *)
Definition lst := (list mutex * list mutex)%type.
Fixpoint drop_all (ds h : list mutex) : option (list mutex) :=
  match ds with
  | [] => Some h
  | d :: r => match h with x :: h' => if mutex_eq_dec d x then drop_all r h' else None | [] => None end
  end.
Definition list_eqb (a b : list mutex) : bool := if list_eq_dec mutex_eq_dec a b then true else false.
Definition lst_eqb (a b : lst) : bool := list_eqb (fst a) (fst b) && list_eqb (snd a) (snd b).
Lemma list_eqb_eq : forall a b, list_eqb a b = true -> a = b.
Proof. intros a b. unfold list_eqb. destruct (list_eq_dec _ a b); congruence. Qed.
Lemma lst_eqb_eq : forall a b, lst_eqb a b = true -> a = b.
Proof. intros [a b] [c d]. unfold lst_eqb. cbn. intros H. apply andb_prop in H. destruct H as (A & B). apply list_eqb_eq in A, B. congruence. Qed.
(** [base]: what was held when the function was called *)
Definition returns_ok (base : list mutex) (st : lst) : bool :=
  match drop_all (snd st) (fst st) with Some h => list_eqb h base | None => false end.
Fixpoint check (n : nat) (base : list mutex) (s : stmt) (st : lst) : option (option lst) :=
  match n with
  | O => None
  | S n =>
      match s with
      | Skip => Some (Some st)
      | Lock m => if may_lock (fst st) m then Some (Some (m :: fst st, snd st)) else None
      | Unlock m => match fst st with x :: h => if mutex_eq_dec m x then Some (Some (h, snd st)) else None | [] => None end
      | DeferUnlock m => Some (Some (fst st, m :: snd st))
      | Return => if returns_ok base st then Some None else None
      | Forever => match fst st with [] => Some None | _ => None end
      | Seq a b => match check n base a st with None => None | Some None => Some None | Some (Some st') => check n base b st' end
      | Either a b =>
          match check n base a st, check n base b st with
          | Some None, Some r => Some r
          | Some r, Some None => Some r
          | Some (Some x), Some (Some y) => if lst_eqb x y then Some (Some x) else None
          | _, _ => None
          end
      | Loop a =>
          match check n base a st with
          | Some None => Some (Some st)
          | Some (Some x) => if lst_eqb x st then Some (Some st) else None
          | None => None
          end
      | Call f =>
          match check n (fst st) (body f) (fst st, []) with
          | Some None => Some (Some st)
          | Some (Some x) => if returns_ok (fst st) x then Some (Some st) else None
          | None => None
          end
      end
  end.

Lemma drop_all_runs : forall ds h h', drop_all ds h = Some h' -> run_acts h (map Rel ds) = Some h'.
Proof.
  induction ds as [|d ds IH]; intros h h' E; cbn in *; [exact E|]. destruct h as [|x h]; [discriminate|]. destruct (mutex_eq_dec d x); [auto|discriminate].
Qed.
Lemma no_hang_rel : forall ds, ~ In Hang (map Rel ds).
Proof. induction ds; cbn; [tauto|]. intros [H|H]; [discriminate|auto]. Qed.

(** What a checked statement does *)
Definition keeps (base : list mutex) (st : lst) (r : option lst) (t : list act) (ds : list mutex) (fl : flow) : Prop :=
  match fl with
  | Next => exists st', r = Some st' /\ ~ In Hang t /\ run_acts (fst st) t = Some (fst st') /\ snd st' = (ds ++ snd st)
  | Back => ~ In Hang t /\ exists h, run_acts (fst st) t = Some h /\ returns_ok base (h, ds ++ snd st) = true
  | Stuck => run_acts (fst st) t = Some []
  end.
Lemma keeps_seq : forall base st st' r t t' ds ds' fl, ~ In Hang t -> run_acts (fst st) t = Some (fst st') -> snd st' = (ds ++ snd st) ->
  keeps base st' r t' ds' fl -> keeps base st r (t ++ t') (ds' ++ ds) fl.
Proof.
  intros base st st' r t t' ds ds' fl N E D K. destruct fl; cbn in *.
  - destruct K as (x & -> & N' & E' & D'). exists x. split; [reflexivity|]. split; [intros I; apply in_app_or in I; tauto|].
    rewrite run_acts_app, E by exact N. split; [exact E'|]. rewrite D', D, app_assoc. reflexivity.
  - destruct K as (N' & h & E' & R). split; [intros I; apply in_app_or in I; tauto|]. exists h. rewrite run_acts_app, E by exact N. split; [exact E'|].
    rewrite D, app_assoc in R. exact R.
  - rewrite run_acts_app, E by exact N. exact K.
Qed.
Lemma check_sound : forall s t ds fl, exec s t ds fl -> forall n base st r, check n base s st = Some r -> keeps base st r t ds fl.
Proof.
  intros s t ds fl X. induction X; intros n base st r C; (destruct n as [|n]; [discriminate|]); cbn [check] in C.
  - injection C as <-. exists st. repeat split; auto.
  - destruct (may_lock (fst st) m) eqn:M; [|discriminate]. injection C as <-. exists (m :: fst st, snd st). repeat split; auto.
    + intros [H|[]]; discriminate.
    + cbn. now rewrite M.
  - destruct (fst st) as [|x h] eqn:F; [discriminate|]. destruct (mutex_eq_dec m x) as [->|]; [|discriminate]. injection C as <-. exists (h, snd st). repeat split; auto.
    + intros [H|[]]; discriminate.
    + cbn. rewrite F. destruct (mutex_eq_dec x x); congruence.
  - injection C as <-. exists (fst st, m :: snd st). repeat split; auto.
  - destruct (returns_ok base st) eqn:R; [|discriminate]. split; [tauto|]. exists (fst st). split; [reflexivity|]. destruct st; exact R.
  - destruct (fst st) as [|x h] eqn:F; [|discriminate]. cbn. now rewrite F.
  - destruct (check n base a st) as [[st'|]|] eqn:CA; [| |discriminate].
    + destruct (IHX1 _ _ _ _ CA) as (x & E & N & R & D). injection E as <-. eapply keeps_seq; eauto.
    + destruct (IHX1 _ _ _ _ CA) as (x & E & _). discriminate.
  - destruct (check n base a st) as [ra|] eqn:CA; [|discriminate]. specialize (IHX _ _ _ _ CA). destruct fl; [congruence| |]; exact IHX.
  - destruct (check n base a st) as [ra|] eqn:CA; [|discriminate]. specialize (IHX _ _ _ _ CA).
    destruct fl; cbn in *; [|exact IHX|exact IHX]. destruct IHX as (x & -> & N & R & D). exists x. repeat split; auto.
    destruct (check n base b st) as [[y|]|]; [destruct (lst_eqb x y)| |]; congruence.
  - destruct (check n base b st) as [rb|] eqn:CB; [|destruct (check n base a st) as [[?|]|]; discriminate]. specialize (IHX _ _ _ _ CB).
    destruct fl; cbn in *; [|exact IHX|exact IHX]. destruct IHX as (y & -> & N & R & D). exists y. repeat split; auto.
    destruct (check n base a st) as [[x|]|]; [destruct (lst_eqb x y) eqn:E; [apply lst_eqb_eq in E|]| |]; congruence.
  - exists st. repeat split; auto. destruct (check n base a st) as [[x|]|]; [destruct (lst_eqb x st)| |]; congruence.
  - pose proof C as CL. destruct (check n base a st) as [[x|]|] eqn:CA; [| |discriminate].
    + destruct (IHX1 _ _ _ _ CA) as (y & E & N & R & D). injection E as <-. destruct (lst_eqb x st) eqn:Q; [|discriminate]. pose proof Q as Q'. apply lst_eqb_eq in Q. subst x.
      eapply keeps_seq; eauto. apply (IHX2 (S n)). cbn [check]. rewrite CA, Q'. exact CL.
    + destruct (IHX1 _ _ _ _ CA) as (y & E & _). discriminate.
  - destruct (check n base a st) as [ra|] eqn:CA; [|discriminate]. specialize (IHX _ _ _ _ CA). destruct fl; [congruence| |]; exact IHX.
  - destruct (check n (fst st) (body f) (fst st, [])) as [rf|] eqn:CF; [|discriminate]. specialize (IHX _ _ _ _ CF).
    assert (G : ~ In Hang t /\ exists h, run_acts (fst st) t = Some h /\ drop_all ds h = Some (fst st)).
    { destruct fl; cbn in IHX.
      - destruct IHX as (x & -> & N & R & D). split; [exact N|]. exists (fst x). split; [exact R|]. destruct (returns_ok (fst st) x) eqn:Q; [|discriminate].
        unfold returns_ok in Q. rewrite D, app_nil_r in Q. destruct (drop_all ds (fst x)) as [h|] eqn:DA; [|discriminate]. apply list_eqb_eq in Q. congruence.
      - destruct IHX as (N & h & R & Q). split; [exact N|]. exists h. split; [exact R|]. unfold returns_ok in Q. cbn [fst snd] in Q. rewrite app_nil_r in Q.
        destruct (drop_all ds h) as [h'|] eqn:DA; [|discriminate]. apply list_eqb_eq in Q. congruence.
      - congruence. }
    destruct G as (N & h & R & D). exists st. split.
    { destruct rf as [x|]; [destruct (returns_ok (fst st) x)|]; congruence. }
    split; [intros I; apply in_app_or in I; destruct I as [I|I]; [auto|exact (no_hang_rel _ I)]|]. rewrite run_acts_app, R by exact N. split; [now apply drop_all_runs|reflexivity].
  - destruct (check n (fst st) (body f) (fst st, [])) as [rf|] eqn:CF; [|discriminate]. exact (IHX _ _ _ _ CF).
Qed.
(** All functions pass, called with nothing held *)
Definition all_functions : list fname :=
  [NewPeer; NewSession; NewInitiator; NewResponder; Change; Remove; Setting; CmdBeacon; ReadConfig; AddRxTran; PrintText; Fetch; Push; Do; CmdRmtran].
Lemma all_check : forallb (fun f => match check 20 [] (Call f) ([], []) with Some (Some ([], [])) => true | _ => false end) all_functions = true.
Proof. vm_compute. reflexivity. Qed.
Lemma function_check : forall f, check 20 [] (Call f) ([], []) = Some (Some ([], [])).
Proof. intros f. destruct f; vm_compute; reflexivity. Qed.
Lemma calls_good : forall fs t, calls fs t -> run_acts [] t = Some [].
Proof.
  intros fs t C. induction C as [|f fs t t' X C IH|f fs t X]; [reflexivity| |].
  - destruct (check_sound _ _ _ _ X _ _ _ _ (function_check f)) as (st & E & N & R & _). injection E as <-. rewrite run_acts_app by exact N. cbn [fst] in R. now rewrite R.
  - exact (check_sound _ _ _ _ X _ _ _ _ (function_check f)).
Qed.

(** ** Goroutines *)

Lemma put_nth_t : forall i k ks, i < List.length ks -> nth_error (put_thread i k ks) i = Some k.
Proof. induction i; destruct ks; cbn; intros; try lia; auto. apply IHi. lia. Qed.
Lemma put_other_t : forall i j k ks, i <> j -> nth_error (put_thread i k ks) j = nth_error ks j.
Proof. induction i; destruct ks, j; cbn; intros; try lia; auto. Qed.
Lemma put_length_t : forall i k ks, List.length (put_thread i k ks) = List.length ks.
Proof. induction i; destruct ks; cbn; auto. Qed.

Inductive shape : list mutex -> Prop :=
| shape_none : shape []
| shape_one : forall m, shape [m]
| shape_two : shape [Smu; Trmu].
Lemma shape_lock : forall h m, may_lock h m = true -> h = [] \/ (h = [Trmu] /\ m = Smu).
Proof. intros h m. destruct h as [|[] [|]]; cbn; auto; try discriminate. destruct (mutex_eq_dec m Smu); auto. discriminate. Qed.
Definition counts (m : mutex) (h : list mutex) : nat := count_occ mutex_eq_dec h m.
Lemma run_counts : forall m t h h', ~ In Hang t -> run_acts h t = Some h' -> counts m h' + unlocks m t = counts m h + locks m t.
Proof.
  intros m. induction t as [|a t IH]; intros h h' N R; [injection R as <-; cbn; lia|].
  assert (N' : ~ In Hang t) by (intros I; apply N; now right). destruct a as [x|x|]; [| |exfalso; apply N; now left].
  - cbn in R. destruct (may_lock h x); [|discriminate]. specialize (IH _ _ N' R). unfold counts, locks, unlocks in *. cbn in *.
    destruct (mutex_eq_dec x m), (mutex_eq_dec m x); cbn in *; try congruence; lia.
  - cbn in R. destruct h as [|y h]; [discriminate|]. destruct (mutex_eq_dec x y) as [->|]; [|discriminate]. specialize (IH _ _ N' R). unfold counts, locks, unlocks in *. cbn in *.
    destruct (mutex_eq_dec y m), (mutex_eq_dec m y); cbn in *; try congruence; lia.
Qed.
Definition goes (t : lthread) (h : list mutex) : Prop := ~ In Hang (t_done t) /\ run_acts [] (t_done t) = Some h /\ run_acts h (t_todo t) = Some [] /\ shape h.
Lemma goes_inside : forall t h m, goes t h -> (inside m t <-> In m h).
Proof.
  intros t h m (N & R & _ & S). pose proof (run_counts m _ _ _ N R) as C. unfold inside. rewrite (count_occ_In mutex_eq_dec). unfold counts in C. cbn in C. lia.
Qed.
Lemma goes_fun : forall t h h', goes t h -> goes t h' -> h = h'.
Proof. intros t h h' (_ & A & _) (_ & B & _). congruence. Qed.
Lemma goes_step : forall d a r h, goes {| t_done := d; t_todo := a :: r |} h -> a <> Hang ->
  exists h', goes {| t_done := d ++ [a]; t_todo := r |} h' /\
    match a with Acq m => h' = m :: h /\ may_lock h m = true | Rel m => h = m :: h' | Hang => False end.
Proof.
  intros d a r h (N & R & T & S) NH. cbn [t_done t_todo] in *. destruct a as [m|m|]; [| |congruence]; cbn in T.
  - destruct (may_lock h m) eqn:M; [|discriminate]. exists (m :: h). split; [|auto]. split; [|split; [|split; [exact T|]]]; cbn [t_done t_todo].
    + intros I. apply in_app_or in I. destruct I as [I|[I|[]]]; [auto|discriminate].
    + rewrite run_acts_app, R by exact N. cbn. now rewrite M.
    + apply shape_lock in M. destruct M as [->|(-> & ->)]; constructor.
  - destruct h as [|x h]; [discriminate|]. destruct (mutex_eq_dec m x) as [<-|]; [|discriminate]. exists h. split; [|auto]. split; [|split; [|split; [exact T|]]]; cbn [t_done t_todo].
    + intros I. apply in_app_or in I. destruct I as [I|[I|[]]]; [auto|discriminate].
    + rewrite run_acts_app, R by exact N. cbn. destruct (mutex_eq_dec m m); congruence.
    + inversion S; constructor.
Qed.

Record linv (s : lstate) : Prop := {
  i_alive : l_dead s = false;
  i_goes : forall i t, nth_error (l_threads s) i = Some t -> exists h, goes t h;
  i_locked : forall m, l_locked s m = true <-> exists i t h, nth_error (l_threads s) i = Some t /\ goes t h /\ In m h;
  i_one : forall m i j t u h g, nth_error (l_threads s) i = Some t -> nth_error (l_threads s) j = Some u -> goes t h -> goes u g -> In m h -> In m g -> i = j }.
Lemma shape_nodup : forall h, shape h -> NoDup h.
Proof. intros h S. destruct S as [|m|]; [constructor|constructor; [intros []|constructor]|]. constructor; [intros [H|[]]; discriminate|]. constructor; [intros []|constructor]. Qed.
Lemma linv_step : forall s i s', linv s -> lstep s i = Some s' -> linv s'.
Proof.
  intros s i s' [A G L O] E. unfold lstep in E. destruct (nth_error (l_threads s) i) as [[d [|a r]]|] eqn:T; try discriminate.
  destruct (G _ _ T) as (h & GO).
  assert (LI : i < List.length (l_threads s)) by (apply nth_error_Some; congruence).
  destruct a as [m|m|]; [| |discriminate].
  - destruct (l_locked s m) eqn:LK; [discriminate|]. injection E as <-.
    destruct (goes_step _ _ _ _ GO) as (h' & GO' & -> & M); [discriminate|]. set (nt := {| t_done := d ++ [Acq m]; t_todo := r |}) in *.
    assert (NO : forall j u g, nth_error (l_threads s) j = Some u -> goes u g -> ~ In m g).
    { intros j u g U GU I. assert (l_locked s m = true) by (apply L; exists j, u, g; auto). congruence. }
    constructor; cbn [l_dead l_threads l_locked].
    + exact A.
    + intros j t J. destruct (Nat.eq_dec i j) as [->|NE]; [rewrite put_nth_t in J by exact LI; injection J as <-; eauto|rewrite put_other_t in J by exact NE; eauto].
    + intros x. destruct (mutex_eq_dec m x) as [<-|NM].
      * split; [intros _|reflexivity]. exists i, nt, (m :: h). rewrite put_nth_t by exact LI. split; [reflexivity|]. split; [exact GO'|]. now left.
      * rewrite L. split; intros (j & t & g & J & GT & I).
        -- destruct (Nat.eq_dec i j) as [->|NE].
           ++ rewrite T in J. injection J as <-. rewrite (goes_fun _ _ _ GT GO) in I. exists j, nt, (m :: h). rewrite put_nth_t by exact LI. split; [reflexivity|]. split; [exact GO'|]. now right.
           ++ exists j, t, g. rewrite put_other_t by exact NE. auto.
        -- destruct (Nat.eq_dec i j) as [->|NE].
           ++ rewrite put_nth_t in J by exact LI. injection J as <-. rewrite (goes_fun _ _ _ GT GO') in I. destruct I as [I|I]; [congruence|]. eexists j, _, h. split; [exact T|]. split; [exact GO|exact I].
           ++ rewrite put_other_t in J by exact NE. exists j, t, g. auto.
    + intros x j k t u g f J K GT GU I I'.
      destruct (Nat.eq_dec i j) as [<-|NJ]; destruct (Nat.eq_dec i k) as [<-|NK]; auto.
      * rewrite put_nth_t in J by exact LI. rewrite put_other_t in K by exact NK. injection J as <-. rewrite (goes_fun _ _ _ GT GO') in I. destruct I as [<-|I].
        -- exfalso. eapply NO; eauto.
        -- exfalso. apply NK. eapply O; eauto.
      * rewrite put_nth_t in K by exact LI. rewrite put_other_t in J by exact NJ. injection K as <-. rewrite (goes_fun _ _ _ GU GO') in I'. destruct I' as [<-|I'].
        -- exfalso. eapply NO; eauto.
        -- exfalso. apply NJ. symmetry. eapply (O x j i); eauto.
      * rewrite put_other_t in J by exact NJ. rewrite put_other_t in K by exact NK. eapply O; eauto.
  - destruct (goes_step _ _ _ _ GO) as (h' & GO' & EH); [discriminate|]. set (nt := {| t_done := d ++ [Rel m]; t_todo := r |}) in *.
    assert (LK : l_locked s m = true). { apply L. eexists i, _, h. subst h. split; [exact T|]. split; [exact GO|]. now left. }
    rewrite LK in E. injection E as <-.
    assert (ND : ~ In m h'). { destruct GO as (_ & _ & _ & S). apply shape_nodup in S. subst h. now inversion S. }
    constructor; cbn [l_dead l_threads l_locked].
    + exact A.
    + intros j t J. destruct (Nat.eq_dec i j) as [->|NE]; [rewrite put_nth_t in J by exact LI; injection J as <-; eauto|rewrite put_other_t in J by exact NE; eauto].
    + intros x. destruct (mutex_eq_dec m x) as [<-|NM].
      * split; [discriminate|]. intros (j & t & g & J & GT & I). exfalso. destruct (Nat.eq_dec i j) as [<-|NE].
        -- rewrite put_nth_t in J by exact LI. injection J as <-. rewrite (goes_fun _ _ _ GT GO') in I. auto.
        -- rewrite put_other_t in J by exact NE. apply NE. apply (O m i j _ _ h g T J GO GT); [subst h; now left|exact I].
      * rewrite L. split; intros (j & t & g & J & GT & I).
        -- destruct (Nat.eq_dec i j) as [->|NE].
           ++ rewrite T in J. injection J as <-. rewrite (goes_fun _ _ _ GT GO), EH in I. destruct I as [I|I]; [congruence|].
              exists j, nt, h'. rewrite put_nth_t by exact LI. auto.
           ++ exists j, t, g. rewrite put_other_t by exact NE. auto.
        -- destruct (Nat.eq_dec i j) as [->|NE].
           ++ rewrite put_nth_t in J by exact LI. injection J as <-. rewrite (goes_fun _ _ _ GT GO') in I. eexists j, _, h. subst h. split; [exact T|]. split; [exact GO|]. now right.
           ++ rewrite put_other_t in J by exact NE. exists j, t, g. auto.
    + intros x j k t u g f J K GT GU I I'.
      destruct (Nat.eq_dec i j) as [<-|NJ]; destruct (Nat.eq_dec i k) as [<-|NK]; auto.
      * rewrite put_nth_t in J by exact LI. rewrite put_other_t in K by exact NK. injection J as <-. rewrite (goes_fun _ _ _ GT GO') in I.
        exfalso. apply NK. apply (O x i k _ _ h f T K GO GU); [subst h; now right|exact I'].
      * rewrite put_nth_t in K by exact LI. rewrite put_other_t in J by exact NJ. injection K as <-. rewrite (goes_fun _ _ _ GU GO') in I'.
        exfalso. apply NJ. apply (O x i j _ _ h g T J GO GT); [subst h; now right|exact I].
      * rewrite put_other_t in J by exact NJ. rewrite put_other_t in K by exact NK. eapply O; eauto.
Qed.
Lemma linv_start : forall ts, program ts -> linv (lstart ts).
Proof.
  intros ts P.
  assert (G : forall i t, nth_error (l_threads (lstart ts)) i = Some t -> goes t []).
  { intros i t T. cbn in T. apply nth_error_In in T. apply in_map_iff in T. destruct T as (x & <- & I). destruct (P _ I) as (fs & C).
    split; [tauto|]. split; [reflexivity|]. split; [exact (calls_good _ _ C)|constructor]. }
  constructor.
  - reflexivity.
  - eauto.
  - intros m. split; [discriminate|]. intros (i & t & h & T & GT & I). rewrite (goes_fun _ _ _ GT (G _ _ T)) in I. destruct I.
  - intros m i j t u h g T U GT GU I. rewrite (goes_fun _ _ _ GT (G _ _ T)) in I. destruct I.
Qed.
Lemma linv_run : forall is s, linv s -> linv (lrun s is).
Proof. induction is as [|i is IH]; intros s I; [exact I|]. cbn. apply IH. destruct (lstep s i) eqn:E; [eapply linv_step; eauto|exact I]. Qed.
Lemma occurs_inv : forall s, occurs s -> linv s.
Proof. intros s (ts & is & P & ->). apply linv_run. now apply linv_start. Qed.
Lemma occurs_run : forall s is, occurs s -> occurs (lrun s is).
Proof.
  intros s is (ts & js & P & ->). exists ts, (js ++ is). split; [exact P|]. generalize (lstart ts). clear. induction js as [|j js IH]; intros s; [reflexivity|]. cbn. apply IH.
Qed.

(** ** Progress *)

Lemma step_release : forall s i d m r, nth_error (l_threads s) i = Some {| t_done := d; t_todo := Rel m :: r |} -> l_locked s m = true ->
  exists s', lstep s i = Some s' /\ l_locked s' m = false /\ nth_error (l_threads s') i = Some {| t_done := d ++ [Rel m]; t_todo := r |} /\
    (forall j, j <> i -> nth_error (l_threads s') j = nth_error (l_threads s) j) /\ List.length (l_threads s') = List.length (l_threads s).
Proof.
  intros s i d m r T L. unfold lstep. rewrite T, L. eexists. split; [reflexivity|]. cbn. destruct (mutex_eq_dec m m); [|congruence]. split; [reflexivity|].
  assert (LI : i < List.length (l_threads s)) by (apply nth_error_Some; congruence).
  split; [now apply put_nth_t|]. split; [intros; now apply put_other_t; auto|apply put_length_t].
Qed.
Lemma step_take : forall s i d m r, nth_error (l_threads s) i = Some {| t_done := d; t_todo := Acq m :: r |} -> l_locked s m = false ->
  exists s', lstep s i = Some s' /\ nth_error (l_threads s') i = Some {| t_done := d ++ [Acq m]; t_todo := r |} /\
    (forall j, j <> i -> nth_error (l_threads s') j = nth_error (l_threads s) j) /\ List.length (l_threads s') = List.length (l_threads s).
Proof.
  intros s i d m r T L. unfold lstep. rewrite T, L. eexists. split; [reflexivity|]. cbn.
  assert (LI : i < List.length (l_threads s)) by (apply nth_error_Some; congruence).
  split; [now apply put_nth_t|]. split; [intros; now apply put_other_t; auto|apply put_length_t].
Qed.
(** What a goroutine that holds a mutex does next *)
Lemma holder_next : forall d todo h, goes {| t_done := d; t_todo := todo |} h -> h <> [] ->
  (exists m r h', todo = Rel m :: r /\ h = m :: h') \/ (exists r, todo = Acq Smu :: r /\ h = [Trmu]).
Proof.
  intros d todo h (_ & _ & T & S) N. cbn [t_todo] in T. destruct todo as [|a r]; [injection T as ->; congruence|]. destruct a as [m|m|]; cbn in T.
  - destruct (may_lock h m) eqn:M; [|discriminate]. apply shape_lock in M. destruct M as [->|(-> & ->)]; [congruence|]. right. eauto.
  - destruct h as [|x h]; [congruence|]. destruct (mutex_eq_dec m x) as [->|]; [|discriminate]. left. eauto 6.
  - destruct h; [congruence|]. destruct r; discriminate.
Qed.
