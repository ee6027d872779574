(** * C155: listing and finding transfers while others are started and removed *)

From Verif Require Import GoBase Sarnet Transfer SpecTransfer TransferMain Table SpecTable TableMain SpecShow ShowMain Tranlist SpecTranlist.
Local Open Scope string_scope.
Local Open Scope N_scope.

(** ** The changes *)
Lemma key_dec t u : {same_key t u} + {~ same_key t u}.
Proof.
  unfold same_key, key_is.
  destruct (Bool.bool_dec (tr_direction u) (tr_direction t)); [|right; intros (A & B & C); congruence].
  destruct (N.eq_dec (tr_session u) (tr_session t)); [|right; intros (A & B & C); congruence].
  destruct (string_dec (udpaddr_string (tr_peer u)) (udpaddr_string (tr_peer t))); [left; auto|right; intros (A & B & C); congruence].
Qed.
Lemma remove_one T t : (exists u, In u T /\ same_key t u /\ do_change T (Removed t) = removelast T) \/
  ((forall u, In u T -> ~ same_key t u) /\ do_change T (Removed t) = T).
Proof.
  destruct (Exists_dec (same_key t) T (key_dec t)) as [E|E].
  - left. apply Exists_exists in E. destruct E as (u & I & K). exists u. repeat split; auto; try apply K.
    cbn [do_change]. rewrite c62_removes_last by eauto. reflexivity.
  - right. assert (A : forall u, In u T -> ~ same_key t u) by (intros u I K; apply E, Exists_exists; eauto).
    split; auto. cbn [do_change]. destruct (c62_absent _ _ A) as (e & ->). reflexivity.
Qed.
Lemma changes_changed cs : forall T, changed T cs (do_changes T cs).
Proof.
  induction cs as [|[t|t] cs IH]; intros T; [constructor| |]; unfold do_changes; cbn [fold_left]; fold (do_changes (do_change T (Added t)) cs); fold (do_changes (do_change T (Removed t)) cs).
  - constructor. apply IH.
  - destruct (remove_one T t) as [(u & I & K & ->)|(A & ->)].
    + destruct T as [|x T _] using rev_ind; [destruct I|]. rewrite removelast_last. eapply ch_removed; eauto.
    + apply ch_absent; auto.
Qed.
Lemma changed_changes T cs T' : changed T cs T' -> T' = do_changes T cs.
Proof.
  induction 1 as [T|T t cs T' H IH|T x t u cs T' I K H IH|T t cs T' A H IH]; [reflexivity| | |]; rewrite IH; unfold do_changes; cbn [fold_left].
  - reflexivity.
  - f_equal. cbn [do_change]. rewrite c62_removes_last by eauto. cbn [fst]. symmetry. apply removelast_last.
  - f_equal. cbn [do_change]. destruct (c62_absent _ _ A) as (e & ->). reflexivity.
Qed.
Lemma do_changes_app T a b : do_changes T (a ++ b) = do_changes (do_changes T a) b.
Proof. unfold do_changes. apply fold_left_app. Qed.
Lemma starts_grow cs : forall T, starts cs -> exists more, do_changes T cs = (T ++ more)%list.
Proof.
  induction cs as [|c cs IH]; intros T S; [exists []; rewrite app_nil_r; reflexivity|].
  destruct (S c (or_introl eq_refl)) as (t & ->). destruct (IH (T ++ [t])%list) as (m & M); [intros d D; apply S; right; auto|].
  exists (t :: m). unfold do_changes in *. cbn [fold_left do_change]. rewrite M, <- app_assoc. reflexivity.
Qed.

(** ** The text *)
Lemma says_shown kind l : transfers_shown kind l (info_says kind l).
Proof.
  destruct l as [|t l]; [left; split; reflexivity|]. right. split; [discriminate|]. unfold info_says.
  destruct (c104_table (t :: l)) as (h & r & H & _). exists h, r. exact H.
Qed.

(** ** Looking *)
Lemma moment_0 T sched : do_changes T (concat (firstn 1 sched)) = do_changes T (hd [] sched).
Proof. destruct sched as [|a l]; cbn; [reflexivity|]. rewrite app_nil_r. reflexivity. Qed.
Lemma moment_S T sched k :
  do_changes T (concat (firstn (S (S k)) sched)) = do_changes (do_changes T (hd [] sched)) (concat (firstn (S k) (tl sched))).
Proof.
  destruct sched as [|a l]; [reflexivity|]. cbn [hd tl]. change (concat (firstn (S (S k)) (a :: l))) with (a ++ concat (firstn (S k) l))%list.
  apply do_changes_app.
Qed.
(** The table at look [k] *)
Definition at_look (T : list transfer) (sched : list (list change)) (k : nat) : list transfer := do_changes T (concat (firstn (S k) sched)).
Lemma at_moments T sched : moments T sched (at_look T sched).
Proof. intros k. apply changes_changed. Qed.
Lemma moments_at T sched tables : moments T sched tables -> forall k, tables k = at_look T sched k.
Proof. intros M k. apply changed_changes, M. Qed.
Lemma amid_see {A} (k : list transfer -> seen A) sched T :
  amid (See k) sched T = amid (k (at_look T sched 0)) (tl sched) (at_look T sched 0).
Proof. unfold at_look. rewrite moment_0. reflexivity. Qed.
Lemma at_look_S T sched k : at_look T sched (S k) = at_look (at_look T sched 0) (tl sched) k.
Proof. unfold at_look. rewrite moment_S, moment_0. reflexivity. Qed.
Lemma amid_at {A} i (k : transfer -> seen A) sched T :
  amid (see_at i k) sched T =
  match nth_error (at_look T sched 0) i with
  | Some t => amid (k t) (tl sched) (at_look T sched 0)
  | None => Panic
  end.
Proof. unfold see_at. rewrite amid_see. destruct (nth_error _ i); reflexivity. Qed.
Local Arguments amid : simpl never.

(** ** All transfers *)
Lemma all_scan n : forall i acc sched T,
  (amid (info_scan "" i n acc) sched T = Panic /\ exists j, (j < n)%nat /\ (List.length (at_look T sched j) <= i + j)%nat) \/
  (exists l, amid (info_scan "" i n acc) sched T = Ret (info_says "" (acc ++ l)) /\ List.length l = n /\
     forall j, (j < n)%nat -> (i + j < List.length (at_look T sched j))%nat /\ nth_error l j = nth_error (at_look T sched j) (i + j)).
Proof.
  induction n as [|n IH]; intros i acc sched T; cbn [info_scan].
  - right. exists []. rewrite app_nil_r. repeat split; try lia; reflexivity.
  - rewrite String.eqb_refl, amid_at. destruct (nth_error (at_look T sched 0) i) as [t|] eqn:N.
    + assert (L : (i < List.length (at_look T sched 0))%nat) by (apply nth_error_Some; congruence).
      destruct (IH (S i) (acc ++ [t])%list (tl sched) (at_look T sched 0)) as [(P & j & J & Q)|(l & R & LL & Q)].
      * left. split; [exact P|]. exists (S j). rewrite at_look_S. split; lia.
      * right. exists (t :: l). rewrite <- app_assoc in R. split; [exact R|]. split; [cbn; lia|].
        intros [|j] J; [rewrite Nat.add_0_r; split; [exact L|symmetry; exact N]|]. rewrite at_look_S. destruct (Q j) as (Q1 & Q2); [lia|].
        replace (i + S j)%nat with (S i + j)%nat by lia. split; [lia|exact Q2].
    + left. split; [reflexivity|]. exists 0%nat. apply nth_error_None in N. split; lia.
Qed.

(** C155: files, and tran without a type, look at the length of the table and then at one transfer after the other.  If, when the
    command comes to the transfer number [i], the table has no more than [i] transfers, the program ends; this is the only way it
    can fail.  Else it shows as many transfers as there were at its first look, each as it is found in its place. *)
Lemma c155_all : forall T sched tables, moments T sched tables ->
  let n := List.length (tables 0%nat) in
  (amid (info_seen "") sched T = Panic <-> exists i, (i < n)%nat /\ (List.length (tables (S i)) <= i)%nat) /\
  ((forall i, (i < n)%nat -> (i < List.length (tables (S i)))%nat) ->
   exists l text, amid (info_seen "") sched T = Ret text /\ transfers_shown "" l text /\ List.length l = n /\
     forall i, (i < n)%nat -> nth_error l i = nth_error (tables (S i)) i).
Proof.
  intros T sched tables M n. pose proof (moments_at _ _ _ M) as E. unfold info_seen. rewrite amid_see, <- (E 0%nat). fold n.
  destruct (all_scan n 0 [] (tl sched) (tables 0%nat)) as [(P & j & J & Q)|(l & R & LL & Q)]; cbn [app Nat.add] in *.
  - rewrite E, <- at_look_S, <- E in Q. split; [split; [eauto|auto]|]. intros A. specialize (A j J). lia.
  - assert (Q' : forall j, (j < n)%nat -> (j < List.length (tables (S j)))%nat /\ nth_error l j = nth_error (tables (S j)) j).
    { intros j J. rewrite E, at_look_S, <- (E 0%nat). apply Q, J. }
    split.
    + rewrite R. split; [discriminate|]. intros (i & I & X). destruct (Q' i I). lia.
    + intros _. exists l. eexists. split; [exact R|]. split; [apply says_shown|]. split; [exact LL|]. intros i I. apply Q', I.
Qed.

(** ** No removal *)
Lemma starts_look T sched : (forall cs, In cs sched -> starts cs) -> exists more, at_look T sched 0 = (T ++ more)%list.
Proof.
  intros S. unfold at_look. rewrite moment_0. apply starts_grow. destruct sched as [|a l]; cbn; [intros c []|]. apply S. left. reflexivity.
Qed.
Lemma in_tl {A} (x : A) l : In x (tl l) -> In x l.
Proof. destruct l; cbn; auto. Qed.
Lemma skipn_nth {A} (l : list A) i n : (i + S n <= List.length l)%nat -> exists x, nth_error l i = Some x /\ firstn (S n) (skipn i l) = x :: firstn n (skipn (S i) l).
Proof.
  revert i. induction l as [|y l IH]; intros i H; cbn in H; [lia|]. destruct i as [|i]; [exists y; split; reflexivity|].
  destruct (IH i) as (x & X & Y); [lia|]. exists x. split; [exact X|exact Y].
Qed.
Lemma chosen_cons kind t l : chosen kind (t :: l) = if String.eqb kind "" || String.eqb (tr_ttype t) kind then t :: chosen kind l else chosen kind l.
Proof. unfold chosen, of_kind. cbn [filter]. destruct (String.eqb kind ""); reflexivity. Qed.
Lemma starts_scan kind n : forall i acc T0 more sched, (i + n <= List.length T0)%nat -> (forall cs, In cs sched -> starts cs) ->
  amid (info_scan kind i n acc) sched (T0 ++ more) = Ret (info_says kind (acc ++ chosen kind (firstn n (skipn i T0)))).
Proof.
  induction n as [|n IH]; intros i acc T0 more sched L S.
  - cbn [info_scan firstn]. unfold amid. replace (chosen kind []) with (@nil transfer) by (unfold chosen; destruct (String.eqb _ _); reflexivity).
    rewrite app_nil_r. reflexivity.
  - destruct (skipn_nth T0 i n L) as (t & N & ->). rewrite chosen_cons.
    assert (ST : forall cs, In cs (tl sched) -> starts cs) by (intros cs C; apply S, in_tl, C).
    assert (STT : forall cs, In cs (tl (tl sched)) -> starts cs) by (intros cs C; apply S, in_tl, in_tl, C).
    destruct (starts_look (T0 ++ more) sched S) as (m1 & M1). rewrite <- app_assoc in M1.
    destruct (starts_look (T0 ++ more ++ m1) (tl sched) ST) as (m2 & M2). rewrite <- !app_assoc in M2.
    assert (N1 : forall m, nth_error (T0 ++ m) i = Some t) by (intros m; rewrite nth_error_app1 by lia; exact N).
    cbn [info_scan]. destruct (String.eqb kind "") eqn:K; cbn [orb]; rewrite amid_at, M1, N1.
    + rewrite IH by (auto; lia). rewrite <- app_assoc. reflexivity.
    + destruct (String.eqb (tr_ttype t) kind).
      * rewrite amid_at, M2, N1, IH by (auto; lia). rewrite <- app_assoc. reflexivity.
      * rewrite IH by (auto; lia). reflexivity.
Qed.
(** C155: while no transfer is removed, a listing shows exactly the transfers (of the kind) that are there at its first look,
    however many are started meanwhile. *)
Lemma c155_started : forall kind T cs sched T', changed T cs T' -> (forall g, In g sched -> starts g) ->
  exists text, amid (info_seen kind) (cs :: sched) T = Ret text /\ transfers_shown kind (chosen kind T') text.
Proof.
  intros kind T cs sched T' C S. apply changed_changes in C. unfold info_seen. rewrite amid_see.
  assert (AL : at_look T (cs :: sched) 0 = T') by (unfold at_look; rewrite moment_0; symmetry; exact C). rewrite AL. cbn [tl].
  pose proof (starts_scan kind (List.length T') 0 [] T' [] sched (le_n _) S) as X. rewrite app_nil_r in X. rewrite X. cbn [app]. rewrite firstn_all2 by (rewrite skipn_length; lia). cbn [skipn]. eexists. split; [reflexivity|]. apply says_shown.
Qed.

(** ** One removal *)
Lemma quiet_look T k g : at_look T (only_at (S k) g) 0 = T.
Proof. reflexivity. Qed.
Lemma now_look T g : at_look T (only_at 0 g) 0 = do_changes T g.
Proof. unfold at_look. rewrite moment_0. reflexivity. Qed.
Lemma quiet_tl k g : tl (only_at (S k) g) = only_at k g.
Proof. reflexivity. Qed.
Lemma end_look (T : list transfer) : at_look T [] 0 = T.
Proof. reflexivity. Qed.
(** Too short a table *)
Lemma short_scan kind n : forall i acc T, (List.length T < i + n)%nat -> (0 < n)%nat -> amid (info_scan kind i n acc) [] T = Panic.
Proof.
  induction n as [|n IH]; intros i acc T L P; [lia|]. cbn [info_scan].
  assert (X : forall acc', nth_error T i <> None -> amid (info_scan kind (S i) n acc') [] T = Panic).
  { intros acc' Q. apply nth_error_Some in Q. apply IH; lia. }
  destruct (String.eqb kind "") eqn:K; rewrite amid_at, end_look; destruct (nth_error T i) as [t|] eqn:N; try reflexivity; cbn [tl].
  - apply X. congruence.
  - destruct (String.eqb (tr_ttype t) kind); [rewrite amid_at, end_look, N; cbn [tl]|]; apply X; congruence.
Qed.
(** The number of looks at the transfers [l] *)
Definition looks_at (kind : string) (l : list transfer) : nat :=
  (List.length l + (if String.eqb kind "" then 0 else List.length (of_kind kind l)))%nat.
Lemma removed_one T u : In u T -> do_changes T [Removed u] = removelast T.
Proof.
  intros I. unfold do_changes. cbn [fold_left do_change]. rewrite c62_removes_last; [reflexivity|]. exists u. split; [exact I|]. repeat split.
Qed.
Lemma removelast_length {A} (l : list A) : List.length (removelast l) = (List.length l - 1)%nat.
Proof. destruct l as [|x l _] using rev_ind; [reflexivity|]. rewrite removelast_last, app_length. cbn. lia. Qed.
Lemma in_pos {A} (x : A) l : In x l -> (0 < List.length l)%nat.
Proof. destruct l; cbn; [intros []|lia]. Qed.
Lemma looks_cons kind t l : looks_at kind (t :: l) = S (looks_at kind l + (if String.eqb kind "" then 0 else if String.eqb (tr_ttype t) kind then 1 else 0))%nat.
Proof. unfold looks_at, of_kind. cbn [filter List.length]. destruct (String.eqb kind ""); [lia|]. destruct (String.eqb (tr_ttype t) kind); cbn [List.length]; lia. Qed.
Lemma nth_skip {A} (l : list A) i r (x : A) : skipn i l = x :: r -> nth_error l i = Some x /\ skipn (S i) l = r.
Proof.
  revert i. induction l as [|y l IH]; intros i H; [destruct i; discriminate|]. destruct i as [|i]; cbn in *; [inversion H; auto|]. apply IH, H.
Qed.
Lemma removal_scan kind T u (I : In u T) : forall rest i acc k, skipn i T = rest ->
  amid (info_scan kind i (List.length rest) acc) (only_at k [Removed u]) T =
  if (k <? looks_at kind rest)%nat then Panic else Ret (info_says kind (acc ++ chosen kind rest)).
Proof.
  induction rest as [|t rest IH]; intros i acc k H.
  - replace (looks_at kind []) with 0%nat by (unfold looks_at; destruct (String.eqb _ _); reflexivity).
    replace (chosen kind []) with (@nil transfer) by (unfold chosen; destruct (String.eqb _ _); reflexivity). rewrite app_nil_r. reflexivity.
  - destruct (nth_skip _ _ _ _ H) as (N & SK).
    assert (LT : List.length T = (i + S (List.length rest))%nat).
    { apply (f_equal (@List.length transfer)) in H. rewrite skipn_length in H. cbn in H. pose proof (in_pos _ _ I).
      destruct (Nat.le_gt_cases (List.length T) i); lia. }
    assert (SH : forall m acc', (0 < m)%nat -> (List.length T <= i + m)%nat -> amid (info_scan kind i m acc') [] (removelast T) = Panic).
    { intros m acc' P L. apply short_scan; [rewrite removelast_length; pose proof (in_pos _ _ I); lia|exact P]. }
    rewrite looks_cons, chosen_cons. cbn [List.length].
    destruct k as [|k].
    + (* it happens now *)
      cbn [Nat.ltb Nat.leb].
      assert (G : amid (info_scan kind i (S (List.length rest)) acc) (only_at 0 [Removed u]) T =
                  amid (info_scan kind i (S (List.length rest)) acc) [] (removelast T)).
      { cbn [info_scan]. destruct (String.eqb kind ""); rewrite !amid_at, now_look, end_look, (removed_one _ _ I); reflexivity. }
      rewrite G. apply SH; lia.
    + cbn [info_scan]. destruct (String.eqb kind "") eqn:K; cbn [orb]; rewrite amid_at, quiet_look, N, quiet_tl.
      * rewrite (IH (S i) _ k SK). rewrite Nat.add_0_r. change (S k <? S (looks_at kind rest))%nat with (k <? looks_at kind rest)%nat.
        rewrite <- app_assoc. reflexivity.
      * destruct (String.eqb (tr_ttype t) kind) eqn:Y.
        -- destruct k as [|k].
           ++ rewrite amid_at, now_look, (removed_one _ _ I). replace (1 <? S (looks_at kind rest + 1))%nat with true by (symmetry; apply Nat.ltb_lt; lia).
              destruct (nth_error (removelast T) i) eqn:X; [|reflexivity].
              destruct rest as [|t' rest'].
              ** exfalso. assert (Z : nth_error (removelast T) i <> None) by congruence. apply nth_error_Some in Z. rewrite removelast_length in Z. cbn in LT. lia.
              ** change (tl (only_at 0 [Removed u])) with (@nil (list change)). apply short_scan; [rewrite removelast_length; cbn [List.length] in *; lia|cbn; lia].
           ++ rewrite amid_at, quiet_look, N, quiet_tl, (IH (S i) _ k SK), <- app_assoc.
              replace (S (S k) <? S (looks_at kind rest + 1))%nat with (k <? looks_at kind rest)%nat; [reflexivity|].
              apply Bool.eq_iff_eq_true. rewrite !Nat.ltb_lt. lia.
        -- rewrite (IH (S i) _ k SK), Nat.add_0_r. reflexivity.
Qed.
(** C155: what one removal does to a listing.  A listing of the transfers of a kind looks once at the length of the table, once at
    each transfer, and once more at each of the kind (of all kinds: once at each).  A removal before the first look leaves the last
    transfer out; one after the last look is not noticed; at every other moment it ends the program. *)
Lemma c155_removed : forall kind T u k, In u T ->
  let looks := (1 + List.length T + (if String.eqb kind "" then 0 else List.length (of_kind kind T)))%nat in
  let result := amid (info_seen kind) (only_at k [Removed u]) T in
  (k = 0%nat -> exists text, result = Ret text /\ transfers_shown kind (chosen kind (removelast T)) text) /\
  ((0 < k < looks)%nat -> result = Panic) /\
  ((looks <= k)%nat -> exists text, result = Ret text /\ transfers_shown kind (chosen kind T) text).
Proof.
  intros kind T u k I looks result. subst result. assert (LK : looks = S (looks_at kind T)) by (subst looks; unfold looks_at; lia). rewrite LK. clearbody looks. clear looks LK.
  destruct k as [|k].
  - split; [intros _|split; lia].
    destruct (c155_started kind T [Removed u] [] (removelast T)) as (text & H); [rewrite <- (removed_one _ _ I); apply changes_changed|intros g []|].
    exists text. exact H.
  - unfold info_seen. rewrite amid_see, quiet_look, quiet_tl, (removal_scan kind T u I T 0 [] k eq_refl). cbn [app].
    split; [lia|]. split.
    + intros L. replace (k <? looks_at kind T)%nat with true by (symmetry; apply Nat.ltb_lt; lia). reflexivity.
    + intros L. replace (k <? looks_at kind T)%nat with false by (symmetry; apply Nat.ltb_ge; lia). eexists. split; [reflexivity|apply says_shown].
Qed.

(** ** The wrong kind *)
Lemma wrong_scan kind T t u (KN : kind <> "") (Y : tr_ttype t = kind) : forall rest i acc, skipn i (T ++ [t]) = (rest ++ [t])%list ->
  amid (info_scan kind i (List.length (rest ++ [t])) acc) (only_at (S (looks_at kind rest)) [Removed t; Added u]) (T ++ [t]) =
  Ret (info_says kind (acc ++ of_kind kind rest ++ [u])).
Proof.
  assert (K : String.eqb kind "" = false) by (apply String.eqb_neq; exact KN).
  induction rest as [|x rest IH]; intros i acc H.
  - destruct (nth_skip _ _ _ _ H) as (N & _). cbn [app List.length info_scan]. rewrite K, amid_at.
    replace (looks_at kind []) with 0%nat by (unfold looks_at; destruct (String.eqb _ _); reflexivity).
    rewrite quiet_look, N, Y, String.eqb_refl, quiet_tl, amid_at, now_look.
    assert (D : do_changes (T ++ [t]) [Removed t; Added u] = (T ++ [u])%list).
    { change (do_change (do_change (T ++ [t]) (Removed t)) (Added u) = (T ++ [u])%list). cbn [do_change].
      rewrite c62_removes_last; [cbn [fst]; rewrite removelast_last; reflexivity|]. exists t. split; [apply in_or_app; right; left; reflexivity|repeat split]. }
    rewrite D.
    assert (NI : nth_error (T ++ [u]) i = Some u).
    { assert (E : i = List.length T).
      { apply (f_equal (@List.length transfer)) in H. rewrite skipn_length, app_length in H. cbn in H. lia. }
      rewrite E, nth_error_app2, Nat.sub_diag by lia. reflexivity. }
    rewrite NI. unfold amid. cbn [of_kind filter app]. reflexivity.
  - cbn [app] in H. destruct (nth_skip _ _ _ _ H) as (N & SK). cbn [app List.length info_scan]. rewrite K, amid_at, quiet_look, N, quiet_tl, looks_cons, K.
    unfold of_kind. cbn [filter]. fold (of_kind kind rest).
    destruct (String.eqb (tr_ttype x) kind).
    + replace (looks_at kind rest + 1)%nat with (S (looks_at kind rest)) by lia.
      rewrite amid_at, quiet_look, N, quiet_tl, (IH (S i) _ SK), <- app_assoc. reflexivity.
    + rewrite Nat.add_0_r. apply (IH (S i) _ SK).
Qed.
(** C155: a listing of one kind can show a transfer of any other kind: when the last transfer is of the kind, and it is removed and
    another one is started between the two looks at it, this other one is shown as if it were of the kind (defect). *)
Lemma c155_wrong : forall kind before t u, kind <> "" -> tr_ttype t = kind ->
  exists k text, amid (info_seen kind) (only_at k [Removed t; Added u]) (before ++ [t]) = Ret text /\
    transfers_shown kind (of_kind kind before ++ [u]) text.
Proof.
  intros kind before t u KN Y. exists (S (S (looks_at kind before))). eexists. split; [|apply says_shown].
  unfold info_seen. rewrite amid_see, quiet_look, quiet_tl, (wrong_scan kind before t u KN Y before 0 [] eq_refl). reflexivity.
Qed.

(** ** Whatever happens *)
Lemma any_scan kind n : forall i acc sched T text, kind <> "" ->
  amid (info_scan kind i n acc) sched T = Ret text ->
  exists l, text = info_says kind (acc ++ l) /\ (List.length l <= n)%nat /\
    forall x, In x l -> exists j k t, (i <= j < i + n)%nat /\ nth_error (at_look T sched k) j = Some t /\ tr_ttype t = kind /\
      nth_error (at_look T sched (S k)) j = Some x.
Proof.
  intros i acc sched T text KN. assert (K : String.eqb kind "" = false) by (apply String.eqb_neq; exact KN). revert i acc sched T text.
  induction n as [|n IH]; intros i acc sched T text H; cbn [info_scan] in H.
  - unfold amid in H. inversion H. exists []. rewrite app_nil_r. split; [reflexivity|]. split; [apply le_n|]. intros x [].
  - rewrite K, amid_at in H. destruct (nth_error (at_look T sched 0) i) as [t|] eqn:N; [|discriminate].
    destruct (String.eqb (tr_ttype t) kind) eqn:Y.
    + apply String.eqb_eq in Y. rewrite amid_at, <- at_look_S in H. destruct (nth_error (at_look T sched 1) i) as [x|] eqn:N1; [|discriminate].
      apply IH in H. destruct H as (l & -> & L & Q). exists (x :: l). rewrite <- app_assoc. split; [reflexivity|]. split; [cbn; lia|].
      intros z [<-|Z]; [exists i, 0%nat, t; repeat split; auto; lia|]. destruct (Q z Z) as (j & k & v & J & Q1 & Q2 & Q3).
      exists j, (S (S k)), v. rewrite (at_look_S T sched (S k)), (at_look_S T sched (S (S k))), (at_look_S _ (tl sched) k), (at_look_S _ (tl sched) (S k)), <- (at_look_S T sched 0).
      repeat split; auto; lia.
    + apply IH in H. destruct H as (l & -> & L & Q). exists l. split; [reflexivity|]. split; [lia|].
      intros z Z. destruct (Q z Z) as (j & k & v & J & Q1 & Q2 & Q3). exists j, (S k), v. rewrite (at_look_S T sched k), (at_look_S T sched (S k)). repeat split; auto; lia.
Qed.
(** C155: whatever happens meanwhile, a listing of one kind that does not end the program shows no more transfers than there were at its
    first look, and in the place of each of them there was one of the kind just before. *)
Lemma c155_kind : forall kind T sched tables text, kind <> "" -> moments T sched tables ->
  amid (info_seen kind) sched T = Ret text ->
  exists l, transfers_shown kind l text /\ (List.length l <= List.length (tables 0%nat))%nat /\
    forall x, In x l -> exists i k t, (i < List.length (tables 0%nat))%nat /\ (0 < k)%nat /\
      nth_error (tables k) i = Some t /\ tr_ttype t = kind /\ nth_error (tables (S k)) i = Some x.
Proof.
  intros kind T sched tables text KN M H. pose proof (moments_at _ _ _ M) as E. unfold info_seen in H. rewrite amid_see, <- (E 0%nat) in H.
  apply any_scan in H; [|exact KN]. destruct H as (l & -> & L & Q). exists l. split; [apply says_shown|]. split; [exact L|].
  intros x I. destruct (Q x I) as (j & k & t & J & Q1 & Q2 & Q3). exists j, (S k), t. rewrite (E 0%nat), <- at_look_S, <- E in Q1, Q3.
  repeat split; auto; lia.
Qed.

(** ** Finding a transfer *)
Lemma remote_cases t : (exists a, remote_string (tr_conn t) = Ret a /\ connected_to a t /\ (forall b, connected_to b t -> b = a)) \/
  (remote_string (tr_conn t) = Panic /\ ~ connected t).
Proof.
  unfold remote_string, connected, connected_to. destruct (tr_conn t) as [c|].
  - destruct (uc_remote c) as [a|] eqn:U.
    + left. exists (udpaddr_string a). split; [reflexivity|]. split; [eauto|]. intros b (c' & a' & X & Y & Z). inversion X; subst. congruence.
    + right. split; [reflexivity|]. intros (b & c' & a' & X & Y & Z). inversion X; subst. congruence.
  - right. split; [reflexivity|]. intros (b & c' & a' & X & _). discriminate.
Qed.
Definition harmless (addr : string) (session : N) (u : transfer) : Prop := connected u /\ ~ named addr session u.
Lemma find_starts addr session n : forall T0 more sched, (n <= List.length T0)%nat -> (forall cs, In cs sched -> starts cs) ->
  Forall (harmless addr session) (skipn n T0) ->
  finds addr session T0 (amid (match_scan addr session n) sched (T0 ++ more)).
Proof.
  induction n as [|n IH]; intros T0 more sched L S F; cbn [match_scan].
  - apply fi_none. exact F.
  - assert (ST : forall cs, In cs (tl sched) -> starts cs) by (intros cs C; apply S, in_tl, C).
    assert (STT : forall cs, In cs (tl (tl sched)) -> starts cs) by (intros cs C; apply S, in_tl, in_tl, C).
    destruct (starts_look (T0 ++ more) sched S) as (m1 & M1). rewrite <- app_assoc in M1.
    destruct (starts_look (T0 ++ more ++ m1) (tl sched) ST) as (m2 & M2). rewrite <- !app_assoc in M2.
    destruct (starts_look (T0 ++ more ++ m1 ++ m2) (tl (tl sched)) STT) as (m3 & M3). rewrite <- !app_assoc in M3.
    destruct (nth_error T0 n) as [t|] eqn:N; [|apply nth_error_None in N; lia].
    assert (N1 : forall m, nth_error (T0 ++ m) n = Some t) by (intros m; rewrite nth_error_app1 by lia; exact N).
    destruct (nth_error_split _ _ N) as (b & a & E & LB).
    assert (AF : skipn (Datatypes.S n) T0 = a).
    { rewrite E. replace (Datatypes.S n) with (List.length (b ++ [t])) by (rewrite app_length; cbn; lia).
      replace (b ++ t :: a)%list with ((b ++ [t]) ++ a)%list by (rewrite <- app_assoc; reflexivity).
      rewrite skipn_app, skipn_all2, Nat.sub_diag by lia. reflexivity. }
    assert (SK : skipn n T0 = t :: a).
    { rewrite E, <- LB, skipn_app, skipn_all2, Nat.sub_diag by lia. reflexivity. }
    rewrite AF in F.
    assert (GO : forall sched' m', (forall cs, In cs sched' -> starts cs) -> harmless addr session t ->
      finds addr session T0 (amid (match_scan addr session n) sched' (T0 ++ m'))).
    { intros sched' m' S' HT. apply IH; [lia|exact S'|]. rewrite SK. constructor; assumption. }
    rewrite amid_at, M1, N1. destruct (remote_cases t) as [(r & -> & CR & U)|(-> & NC)].
    + destruct (String.eqb addr r) eqn:ER.
      * apply String.eqb_eq in ER. subst r. rewrite amid_at, M2, N1. destruct (session =? tr_session t) eqn:ES.
        -- apply N.eqb_eq in ES. rewrite amid_at, M3, N1. unfold amid. rewrite <- LB. eapply fi_some; [exact E| |exact F]. split; [exact CR|congruence].
        -- apply N.eqb_neq in ES. apply GO; [exact STT|]. split; [exists addr; exact CR|]. intros (_ & X). congruence.
      * apply String.eqb_neq in ER. apply GO; [exact ST|]. split; [exists r; exact CR|]. intros (X & _). apply U in X. congruence.
    + unfold amid. eapply fi_dies; [exact E|exact NC|exact F].
Qed.
(** C155: while no transfer is removed, the transfer that rmtran means is looked for among those that are there at the first look. *)
Lemma c155_find_started : forall addr session T cs sched T', changed T cs T' -> (forall g, In g sched -> starts g) ->
  finds addr session T' (amid (match_seen addr session) (cs :: sched) T).
Proof.
  intros addr session T cs sched T' C S. apply changed_changes in C. unfold match_seen. rewrite amid_see.
  assert (AL : at_look T (cs :: sched) 0 = T') by (unfold at_look; rewrite moment_0; symmetry; exact C). rewrite AL. cbn [tl].
  pose proof (find_starts addr session (List.length T') T' [] sched (le_n _) S) as X. rewrite app_nil_r in X. apply X. rewrite skipn_all. constructor.
Qed.

(** Once the last transfer is passed, its removal does not matter *)
Lemma passed_scan addr session before t u n : forall k, In u (before ++ [t]) -> (n <= List.length before)%nat ->
  amid (match_scan addr session n) (only_at k [Removed u]) (before ++ [t]) = amid (match_scan addr session n) [] (before ++ [t]).
Proof.
  induction n as [|n IH]; intros k I L; [reflexivity|]. cbn [match_scan].
  assert (N : nth_error (before ++ [t]) n = nth_error before n) by (apply nth_error_app1; lia).
  assert (ER : forall m, (m <= List.length before)%nat -> amid (match_scan addr session m) [] before = amid (match_scan addr session m) [] (before ++ [t])).
  { induction m as [|m IHm]; intros LM; [reflexivity|]. cbn [match_scan]. rewrite !amid_at, !end_look.
    rewrite (nth_error_app1 before [t]) by lia. destruct (nth_error before m) as [v|] eqn:NM; [|reflexivity]. cbn [tl].
    destruct (remote_string (tr_conn v)); try reflexivity. destruct (String.eqb _ _); [|apply IHm; lia].
    rewrite !amid_at, !end_look, (nth_error_app1 before [t]) by lia. rewrite NM. cbn [tl].
    destruct (_ =? _); [|apply IHm; lia]. rewrite !amid_at, !end_look, (nth_error_app1 before [t]) by lia. rewrite NM. reflexivity. }
  assert (RM : do_changes (before ++ [t]) [Removed u] = before) by (rewrite (removed_one _ _ I); apply removelast_last).
  destruct (nth_error before n) as [v|] eqn:NB; [|apply nth_error_None in NB; lia].
  assert (SEE : forall (kk : transfer -> seen (option nat)) k,
    (forall k', amid (kk v) (only_at k' [Removed u]) (before ++ [t]) = amid (kk v) [] (before ++ [t])) ->
    amid (kk v) [] before = amid (kk v) [] (before ++ [t]) ->
    amid (see_at n kk) (only_at k [Removed u]) (before ++ [t]) = amid (see_at n kk) [] (before ++ [t])).
  { intros kk k0 H1 H2. rewrite !amid_at, end_look, N. destruct k0 as [|k0].
    - rewrite now_look, RM, NB. exact H2.
    - rewrite quiet_look, N, quiet_tl. apply H1. }
  assert (SEEB : forall (kk : transfer -> seen (option nat)),
    amid (kk v) [] before = amid (kk v) [] (before ++ [t]) ->
    amid (see_at n kk) [] before = amid (see_at n kk) [] (before ++ [t])).
  { intros kk H. rewrite !amid_at, !end_look, N, NB. exact H. }
  assert (E1 := ER n). assert (E2 : amid (match_scan addr session n) [] before = amid (match_scan addr session n) [] (before ++ [t])) by (apply E1; lia).
  apply SEE.
  - intros k'. destruct (remote_string (tr_conn v)); try reflexivity. destruct (String.eqb _ _); [|apply IH; [exact I|lia]].
    apply SEE.
    + intros k''. destruct (_ =? _); [|apply IH; [exact I|lia]]. apply SEE; reflexivity.
    + destruct (_ =? _); [|exact E2]. apply SEEB. reflexivity.
  - destruct (remote_string (tr_conn v)); try reflexivity. destruct (String.eqb _ _); [|exact E2].
    apply SEEB. destruct (_ =? _); [|exact E2]. apply SEEB. reflexivity.
Qed.
(** C155: what one removal does to looking for a transfer.  The search looks at the length of the table and then at the last transfer:
    once, if it is not connected to the address; twice, if it is but has another session; three times, if it is the one that is meant.
    A removal between the look at the length and the last of these looks ends the program (defect).  Before that the search
    goes through the remaining transfers, after that it is not disturbed. *)
Lemma c155_find_removed : forall addr session before t u k looks, In u (before ++ [t]) ->
  (~ connected_to addr t /\ looks = 1 \/ connected_to addr t /\ tr_session t <> session /\ looks = 2 \/ named addr session t /\ looks = 3)%nat ->
  let result := amid (match_seen addr session) (only_at k [Removed u]) (before ++ [t]) in
  (k = 0%nat -> finds addr session before result) /\
  ((0 < k <= looks)%nat -> result = Panic) /\
  ((looks < k)%nat -> finds addr session (before ++ [t]) result).
Proof.
  intros addr session before t u k looks I LK result. subst result.
  assert (RM : do_changes (before ++ [t]) [Removed u] = before) by (rewrite (removed_one _ _ I); apply removelast_last).
  destruct k as [|k].
  { split; [intros _|split; lia]. apply c155_find_started; [|intros g []]. pose proof (changes_changed [Removed u] (before ++ [t])) as X. rewrite RM in X. exact X. }
  split; [lia|].
  assert (FT : finds addr session (before ++ [t]) (amid (match_seen addr session) [] (before ++ [t]))).
  { apply (c155_find_started addr session (before ++ [t]) [] [] (before ++ [t])); [constructor|intros g []]. }
  unfold match_seen in *. rewrite amid_see in FT. rewrite end_look in FT. rewrite amid_see, quiet_look, quiet_tl.
  rewrite app_length, Nat.add_1_r in *. cbn [tl match_scan] in *.
  assert (NL : nth_error (before ++ [t]) (List.length before) = Some t) by (rewrite nth_error_app2, Nat.sub_diag by lia; reflexivity).
  assert (NB : nth_error before (List.length before) = None) by (apply nth_error_None; lia).
  rewrite amid_at, end_look, NL in FT. rewrite amid_at.
  destruct k as [|k]; [rewrite now_look, RM, NB; split; [reflexivity|]; destruct LK as [(_ & ->)|[(_ & _ & ->)|(_ & ->)]]; lia|].
  rewrite quiet_look, NL, quiet_tl. cbn [tl] in FT.
  destruct (remote_cases t) as [(r & RE & CR & U)|(RE & NC)]; rewrite RE in FT |- *.
  - destruct (String.eqb addr r) eqn:ER.
    + apply String.eqb_eq in ER. subst r. destruct LK as [(X & _)|LK]; [tauto|].
      rewrite amid_at, end_look, NL in FT. rewrite amid_at. cbn [tl] in FT.
      destruct k as [|k]; [rewrite now_look, RM, NB; split; [reflexivity|]; destruct LK as [(_ & _ & ->)|(_ & ->)]; lia|].
      rewrite quiet_look, NL, quiet_tl.
      destruct (session =? tr_session t) eqn:ES.
      * apply N.eqb_eq in ES. destruct LK as [(_ & X & _)|(_ & ->)]; [congruence|].
        rewrite amid_at, end_look, NL in FT. rewrite amid_at. cbn [tl] in FT.
        destruct k as [|k]; [rewrite now_look, RM, NB; split; [reflexivity|lia]|]. rewrite quiet_look, NL. split; [lia|]. intros _. exact FT.
      * apply N.eqb_neq in ES. destruct LK as [(_ & _ & ->)|((_ & X) & _)]; [|congruence].
        split; [lia|]. intros _. rewrite passed_scan by (auto; lia). exact FT.
    + apply String.eqb_neq in ER. destruct LK as [(_ & ->)|[(X & _)|((X & _) & _)]]; [|apply U in X; congruence|apply U in X; congruence].
      split; [lia|]. intros _. rewrite passed_scan by (auto; lia). exact FT.
  - destruct LK as [(_ & ->)|[(X & _)|((X & _) & _)]]; [|destruct NC; exists addr; exact X|destruct NC; exists addr; exact X].
    split; [lia|]. intros _. exact FT.
Qed.

(** Three transfers, of which a failed one is removed while another goroutine lists them: after the second look the program ends *)
Example c155_all_ex :
  let T := TransferMain.ex_table in let u := ex_transfer 7 ex_peer "a" in let v := ex_transfer 10 ex_peer2 "d" in
  amid (info_seen "") (only_at 2 [Removed u]) T = Panic /\
  amid (info_seen "") (only_at 2 [Removed u; Added v]) T = Ret (info_text [u; ex_transfer 8 ex_peer2 "b"; v]) /\
  moments T (only_at 2 [Removed u; Added v]) (at_look T (only_at 2 [Removed u; Added v])) /\
  map (fun k => map tr_session (at_look T (only_at 2 [Removed u; Added v]) k)) [0; 1; 2; 3]%nat = [[7; 8; 9]; [7; 8; 9]; [7; 8; 10]; [7; 8; 10]].
Proof. cbv zeta. repeat split; try (vm_compute; reflexivity). apply at_moments. Qed.
Example c155_removed_ex :
  let T := TransferMain.ex_table in let u := ex_transfer 7 ex_peer "a" in
  In u T /\ List.length (of_kind "get" T) = 3%nat /\
  map (fun k => match amid (info_seen "get") (only_at k [Removed u]) T with Ret _ => true | _ => false end) [0; 1; 2; 3; 4; 5; 6; 7; 8]%nat =
    [true; false; false; false; false; false; false; true; true] /\
  amid (info_seen "put") (only_at 4 [Removed u]) T = Ret "No put transfers currently in progress".
Proof. cbv zeta. split; [left; reflexivity|]. vm_compute. repeat split; reflexivity. Qed.
(** "get" lists a transfer that puts *)
Example c155_wrong_ex :
  let t := ex_transfer 7 ex_peer "a" in
  let u := {| tr_direction := initiator; tr_session := 8; tr_conn := tr_conn t; tr_peer := ex_peer; tr_ttype := "put"; tr_tstamptype := ""; tr_filename := "new";
    tr_fp := None; tr_filemeta := None; tr_csumtype := ""; tr_havemeta := false; tr_checksum := []; tr_dir := None; tr_data := []; tr_progress := 0; tr_inrespto := 0;
    tr_curfills := []; tr_cliflags := None |} in
  tr_ttype t = "get" /\ starts [Added u] /\
  amid (info_seen "get") (only_at 2 [Removed t; Added u]) [t] = Ret
"|------|--------|-------------|---|
|Direct|Tran Typ|           IP|Fname|
|------|--------|-------------|---|
|Initiator|     put|10.0.0.1:7542|new|
|------|--------|-------------|---|
".
Proof. cbv zeta. split; [reflexivity|]. split; [intros c [<-|[]]; eauto|]. vm_compute. reflexivity. Qed.
(** Looking for the first transfer, while one is removed *)
Example c155_find_ex :
  let T := TransferMain.ex_table in let u := ex_transfer 7 ex_peer "a" in
  named "10.0.0.1:7542" 7 u /\ connected_to "10.0.0.1:7542" (ex_transfer 9 ex_peer "c") /\ tr_session (ex_transfer 9 ex_peer "c") <> 7 /\
  map (fun k => match amid (match_seen "10.0.0.1:7542" 7) (only_at k [Removed u]) T with Ret (Some i) => Some i | _ => None end) [0; 1; 2; 3; 4; 5]%nat =
    [Some 0; None; None; Some 0; Some 0; Some 0]%nat /\
  amid (match_seen "10.0.0.1:7542" 9) (only_at 3 [Removed u]) T = Panic.
Proof.
  cbv zeta. split; [split; [do 2 eexists; split; [reflexivity|split; reflexivity]|reflexivity]|].
  split; [do 2 eexists; split; [reflexivity|split; reflexivity]|]. split; [discriminate|]. split; vm_compute; reflexivity.
Qed.
