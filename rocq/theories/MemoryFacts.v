(** * Facts about slices and arrays *)

From Verif Require Import GoBase GoFacts Flags Config Shipped SarFacts Timestamp Holes Data Status Request Beacon Fileio Dirent Metadata Trans Listen Memory SpecMemory.
Local Open Scope string_scope.
Local Open Scope N_scope.

Lemma nth_of_error : forall {A} (H : list (list A)) a x, nth_error H a = Some x -> nth a H [] = x.
Proof. intros A H a x E. apply nth_error_nth with (d := []) in E. exact E. Qed.
Lemma set_arr_same : forall {A} (H : list (list A)) a x y, nth_error H a = Some y -> nth_error (set_arr H a x) a = Some x.
Proof. intros A H. induction H; intros [|b] x y E; try discriminate; cbn in *; auto. eapply IHlist; eauto. Qed.
Lemma set_arr_other : forall {A} (H : list (list A)) a b x, a <> b -> nth_error (set_arr H a x) b = nth_error H b.
Proof. intros A H. induction H; intros [|a'] [|b] x N; cbn; auto; try congruence. Qed.
Lemma set_arr_length : forall {A} (H : list (list A)) a x, length (set_arr H a x) = length H.
Proof. intros A H. induction H; intros [|b] x; cbn; auto. Qed.
Lemma last_error : forall {A} (H : list (list A)) x, nth_error (H ++ [x]) (length H) = Some x.
Proof. intros. rewrite nth_error_app2 by lia. rewrite Nat.sub_diag. reflexivity. Qed.
Lemma app_error : forall {A} (H : list (list A)) x a y, nth_error H a = Some y -> nth_error (H ++ [x]) a = Some y.
Proof. intros A H x a y E. rewrite nth_error_app1; auto. apply nth_error_Some. congruence. Qed.
Lemma beyond_end : forall {A} (H : list (list A)), nth_error H (length H) = None.
Proof. intros. apply nth_error_None. lia. Qed.

Lemma kept_refl : forall {A} (H : list (list A)), all_kept H H.
Proof. intros A H a x E. exact E. Qed.
Lemma kept_trans : forall {A} (H H1 H2 : list (list A)), all_kept H H1 -> all_kept H1 H2 -> all_kept H H2.
Proof. intros A H H1 H2 X Y a x E. auto. Qed.
Lemma kept_app : forall {A} (H : list (list A)) x, all_kept H (H ++ [x]).
Proof. intros A H x a y E. apply app_error. exact E. Qed.
Lemma unchanged : forall M, nothing_written M M.
Proof. intros M. split; apply kept_refl. Qed.
Lemma seen_kept : forall {A} (H H' : list (list A)) s, alive H s -> all_kept H H' -> seen H' s = seen H s.
Proof.
  intros A H H' [s|] L K; [|reflexivity]. destruct L as (x & E & _). unfold seen.
  rewrite (nth_of_error _ _ _ E), (nth_of_error _ _ _ (K _ _ E)). reflexivity.
Qed.
Lemma alive_kept : forall {A} (H H' : list (list A)) s, alive H s -> all_kept H H' -> alive H' s.
Proof. intros A H H' [s|] L K; [|exact I]. destruct L as (x & E & R). exists x. split; auto. Qed.
Lemma seen_new : forall {A} (H H1 H2 : list (list A)) s, made_since H s -> alive H1 s -> new_kept H H1 H2 -> seen H2 s = seen H1 s.
Proof.
  intros A H H1 H2 [s|] N L K; [|reflexivity]. destruct L as (x & E & _). unfold seen.
  rewrite (nth_of_error _ _ _ E), (nth_of_error _ _ _ (K _ _ N E)). reflexivity.
Qed.

(** ** make and copy *)
Lemma overwrite_all : forall {A} (b c : list A), length b = length c -> overwrite b 0 c = c.
Proof. intros A b c L. unfold overwrite. cbn [firstn app Nat.add]. rewrite skipn_all2 by lia. apply app_nil_r. Qed.
Lemma set_last : forall {A} (H : list (list A)) b c, set_arr (H ++ [b]) (length H) c = (H ++ [c])%list.
Proof. intros A H b c. induction H; cbn; [reflexivity|]. f_equal. exact IHlist. Qed.
Lemma nth_last : forall {A} (H : list (list A)) b, nth (length H) (H ++ [b]) [] = b.
Proof. intros. apply nth_of_error, last_error. Qed.
Lemma fresh_copy_eq : forall M src, fresh_copy M (length src) src =
  ({| mb := (mb M ++ [src])%list; mh := mh M |}, {| sl_array := length (mb M); sl_start := 0; sl_length := length src; sl_capacity := length src |}).
Proof.
  intros M src. unfold fresh_copy, alloc, copy_in, store. cbn [sl_array sl_start sl_length]. rewrite firstn_all, nth_last.
  rewrite overwrite_all by (rewrite repeat_length; reflexivity). rewrite set_last. reflexivity.
Qed.
Lemma seen_whole : forall (H : list (list byte)) b c, seen (H ++ [b]) (Some {| sl_array := length H; sl_start := 0; sl_length := length b; sl_capacity := c |}) = b.
Proof. intros. unfold seen. cbn [sl_array sl_start sl_length]. rewrite nth_last. cbn [skipn]. apply firstn_all. Qed.
Lemma alive_whole : forall {A} (H : list (list A)) b, alive (H ++ [b]) (Some {| sl_array := length H; sl_start := 0; sl_length := length b; sl_capacity := length b |}).
Proof. intros. exists b. cbn. rewrite last_error. repeat split; lia. Qed.

(** ** append *)
(** What appending [xs], one by one, to the slice [s] does to the arrays *)
Definition slen_of (s : option sref) : nat := match s with None => 0 | Some s => sl_length s end.
Record appended {A} (H : list (list A)) (s : option sref) (xs : list A) (H' : list (list A)) (s' : option sref) : Prop := {
  ap_alive : alive H' s';
  ap_seen : seen H' s' = (seen H s ++ xs)%list;
  ap_new : (room s < length xs)%nat -> made_since H s' /\ s' <> None;
  ap_same : (length xs <= room s)%nat -> match s, s' with
    | Some s, Some s' => sl_array s' = sl_array s /\ sl_start s' = sl_start s /\ sl_length s' = (sl_length s + length xs)%nat /\ sl_capacity s' = sl_capacity s
    | None, None => True | _, _ => False end;
  ap_other : forall a x, nth_error H a = Some x -> (forall t, s = Some t -> sl_array t <> a) -> nth_error H' a = Some x;
  ap_own : forall t x, s = Some t -> nth_error H (sl_array t) = Some x ->
    nth_error H' (sl_array t) = Some (overwrite x (sl_start t + sl_length t) (firstn (room s) xs))
}.
Lemma firstn_seen_length : forall {A} (H : list (list A)) s, alive H (Some s) -> length (seen H (Some s)) = sl_length s.
Proof.
  intros A H s (x & E & L & C). unfold seen. rewrite (nth_of_error _ _ _ E). rewrite firstn_length, skipn_length. lia.
Qed.
Lemma overwrite_nil : forall {A} (x : list A) i, overwrite x i [] = x.
Proof. intros. unfold overwrite. cbn [length app]. rewrite Nat.add_0_r. apply firstn_skipn. Qed.
Lemma overwrite_more : forall {A} (x : list A) i a b, (i + length a + length b <= length x)%nat ->
  overwrite (overwrite x i a) (i + length a) b = overwrite x i (a ++ b).
Proof.
  intros A x i a b L. unfold overwrite at 1 3.
  assert (E : firstn (i + length a) (overwrite x i a) = (firstn i x ++ a)%list).
  { unfold overwrite. rewrite app_assoc. rewrite firstn_app. rewrite firstn_all2 by (rewrite app_length, firstn_length; lia).
    rewrite app_length, firstn_length. replace (i + length a - (Nat.min i (length x) + length a))%nat with 0%nat by lia.
    cbn [firstn]. apply app_nil_r. }
  rewrite E. rewrite <- !app_assoc. do 3 f_equal. unfold overwrite.
  rewrite app_assoc, skipn_app. rewrite (skipn_all2 (n := i + length a + length b)) by (rewrite app_length, firstn_length; lia).
  cbn [app]. rewrite app_length, firstn_length.
  replace (i + length a + length b - (Nat.min i (length x) + length a))%nat with (length b) by lia.
  rewrite app_length. revert L. generalize (length a) (length b). intros m n L.
  clear E. revert x L. replace (i + (m + n))%nat with (i + m + n)%nat by lia. generalize (i + m)%nat as k. intros k. induction k; intros x L; cbn; [reflexivity|].
  destruct x; [destruct n; reflexivity|]. apply IHk. cbn in L. lia.
Qed.
Lemma append_one_spec : forall {A} grow (z : A) H s x, alive H s -> let '(H', s') := append_one grow z H s x in appended H s [x] H' (Some s').
Proof.
  intros A grow z H [s|] x L; unfold append_one.
  - pose proof (firstn_seen_length H s L) as SL. destruct L as (y & E & L & C). destruct (Nat.ltb_spec (sl_length s) (sl_capacity s)) as [R|R].
    + assert (W : nth_error (store H s (sl_length s) [x]) (sl_array s) = Some (overwrite y (sl_start s + sl_length s) [x])).
      { unfold store. rewrite (nth_of_error _ _ _ E). eapply set_arr_same; eauto. }
      split.
      * exists (overwrite y (sl_start s + sl_length s) [x]). cbn [sl_array sl_length sl_capacity sl_start]. split; [exact W|].
        rewrite overwrite_length by (cbn; lia). lia.
      * unfold seen. cbn [sl_array sl_start sl_length]. rewrite (nth_of_error _ _ _ W), (nth_of_error _ _ _ E).
        unfold overwrite. cbn [app length].
        rewrite skipn_app, firstn_length. rewrite (Nat.min_l (sl_start s + sl_length s)) by lia.
        replace (sl_start s - (sl_start s + sl_length s))%nat with 0%nat by lia. cbn [skipn].
        rewrite skipn_firstn_comm. replace (sl_start s + sl_length s - sl_start s)%nat with (sl_length s) by lia.
        rewrite firstn_app, firstn_firstn. rewrite Nat.min_r by lia.
        rewrite firstn_length, skipn_length. rewrite (Nat.min_l (sl_length s)) by lia.
        replace (S (sl_length s) - sl_length s)%nat with 1%nat by lia. reflexivity.
      * cbn. lia.
      * intros _. cbn. repeat split; lia.
      * intros a w Ew N. unfold store. rewrite set_arr_other; auto.
      * intros t w Et Ew. injection Et as <-. rewrite E in Ew. injection Ew as <-. rewrite W. f_equal. f_equal.
        cbn [room]. destruct (sl_capacity s - sl_length s)%nat eqn:Z; [lia|]. cbn [firstn]. rewrite firstn_nil. reflexivity.
    + split.
      * eexists. cbn [sl_array sl_length sl_capacity sl_start]. rewrite last_error. split; [reflexivity|]. rewrite app_length, SL. cbn [length]. rewrite repeat_length. lia.
      * set (q := seen H (Some s)) in *. unfold seen. cbn [sl_array sl_start sl_length]. rewrite nth_last. cbn [skipn].
        rewrite <- SL. rewrite firstn_app. rewrite firstn_all2 by lia. replace (S (length q) - length q)%nat with 1%nat by lia. reflexivity.
      * intros _. cbn. rewrite beyond_end. split; congruence.
      * cbn. lia.
      * intros a w Ew N. apply app_error. exact Ew.
      * intros t w Et Ew. injection Et as <-. rewrite (app_error _ _ _ _ Ew). f_equal. cbn [room].
        replace (sl_capacity s - sl_length s)%nat with 0%nat by lia. cbn [firstn]. rewrite overwrite_nil. reflexivity.
  - split.
    + eexists. cbn [sl_array sl_length sl_capacity sl_start]. rewrite last_error. split; [reflexivity|]. cbn [length]. rewrite repeat_length. lia.
    + unfold seen. cbn [sl_array sl_start sl_length]. rewrite nth_last. reflexivity.
    + intros _. cbn. rewrite beyond_end. split; congruence.
    + cbn. lia.
    + intros a w Ew N. apply app_error. exact Ew.
    + intros t w Et. discriminate.
Qed.
Lemma appended_none : forall {A} (H : list (list A)) s, alive H s -> appended H s [] H s.
Proof.
  intros A H s L. split; auto.
  - rewrite app_nil_r. reflexivity.
  - cbn. lia.
  - intros _. destruct s; cbn; auto.
  - intros t x -> E. rewrite firstn_nil, overwrite_nil. exact E.
Qed.
Lemma appended_step : forall {A} (H : list (list A)) s x H1 s1 xs H2 s2, alive H s ->
  appended H s [x] H1 (Some s1) -> appended H1 (Some s1) xs H2 s2 -> appended H s (x :: xs) H2 s2.
Proof.
  intros A H s x H1 s1 xs H2 s2 L [a1 b1 c1 d1 e1 f1] [a2 b2 c2 d2 e2 f2]. split.
  - exact a2.
  - rewrite b2, b1, <- app_assoc. reflexivity.
  - cbn [length]. intros R. destruct (le_lt_dec 1 (room s)) as [Q|Q].
    + specialize (d1 Q). destruct s as [s|]; [|cbn in Q; lia]. destruct d1 as (p1 & p2 & p3 & p4).
      destruct c2 as (m & n); [cbn [room] in *; rewrite p3, p4; cbn [length]; lia|]. split; [|exact n].
      destruct s2 as [s2|]; [|exact I]. cbn in m |- *. destruct (nth_error H (sl_array s2)) as [w|] eqn:W; [|reflexivity].
      destruct (Nat.eq_dec (sl_array s) (sl_array s2)) as [P|P].
      * rewrite <- P in *. specialize (f1 s w eq_refl W). congruence.
      * rewrite (e1 _ _ W) in m; [discriminate|]. intros t Et. injection Et as <-. exact P.
    + destruct (c1 Q) as (m & _). destruct (le_lt_dec (length xs) (room (Some s1))) as [Z|Z].
      * specialize (d2 Z). destruct s2 as [s2|]; [|contradiction]. split; [|congruence]. cbn in m |- *. destruct d2 as (-> & _). exact m.
      * destruct (c2 Z) as (m2 & n2). split; [|exact n2]. destruct s2 as [s2|]; [|exact I]. cbn in m2 |- *.
        destruct (nth_error H (sl_array s2)) as [w|] eqn:W; [|reflexivity]. rewrite (e1 _ _ W) in m2; [discriminate|].
        intros t -> P. pose proof (f1 t w eq_refl) as F. rewrite P in F. specialize (F W). congruence.
  - cbn [length]. intros R. assert (Q : (1 <= room s)%nat) by lia. specialize (d1 Q). destruct s as [s|]; [|cbn in Q; lia].
    destruct d1 as (p1 & p2 & p3 & p4). cbn [length] in p3. assert (Z : (length xs <= room (Some s1))%nat) by (cbn [room] in *; rewrite p3, p4; lia).
    specialize (d2 Z). destruct s2 as [s2|]; [|contradiction]. destruct d2 as (q1 & q2 & q3 & q4). repeat split; try congruence. lia.
  - intros a w W N. assert (W1 := e1 a w W N). destruct (Nat.eq_dec (sl_array s1) a) as [P|P].
    + exfalso. destruct (le_lt_dec 1 (room s)) as [Q|Q].
      * specialize (d1 Q). destruct s as [s|]; [|cbn in Q; lia]. apply (N s eq_refl). destruct d1 as (p1 & _). congruence.
      * destruct (c1 Q) as (m & _). cbn in m. rewrite P in m. congruence.
    + apply e2; auto. intros t Et. injection Et as <-. exact P.
  - intros t w -> W. assert (W1 := f1 t w eq_refl W). destruct (le_lt_dec 1 (room (Some t))) as [Q|Q].
    + specialize (d1 Q). destruct d1 as (p1 & p2 & p3 & p4). pose proof (fun w => f2 s1 w eq_refl) as F2. rewrite p1 in F2. rewrite (F2 _ W1). f_equal.
      rewrite p2, p3. cbn [length]. replace (sl_start t + (sl_length t + 1))%nat with (sl_start t + sl_length t + length [x])%nat by (cbn; lia).
      destruct L as (w' & W' & L1 & L2). assert (w' = w) by congruence. subst w'.
      destruct (room (Some t)) as [|r] eqn:Z; [cbn in Q; lia|]. cbn [firstn]. rewrite firstn_nil.
      rewrite overwrite_more.
      2:{ cbn [room length] in *. rewrite firstn_length. rewrite p3, p4. cbn [length]. lia. }
      cbn [app]. do 2 f_equal. f_equal. cbn [room] in *. rewrite p3, p4. cbn [length]. lia.
    + destruct (c1 Q) as (m & _). assert (Z : room (Some t) = 0%nat) by lia. rewrite Z in *. cbn [firstn] in *. rewrite overwrite_nil in *.
      apply e2; auto. intros u Eu P. injection Eu as <-. cbn in m. rewrite P in m. congruence.
Qed.
