(** * C158, C159: pointers to transfers, and going over the table, while others are started and removed *)

From Verif Require Import GoBase Trans FileioFacts Sarnet Transfer SpecTransfer TransferMain Tranlist SpecTranlist TranlistMain Slots SpecSlots.
Local Open Scope string_scope.
Local Open Scope N_scope.

(** ** The memory *)
(** The table has an array of its own with room for it *)
Definition sound (m : slots) : Prop :=
  (s_cur m < List.length (s_arrays m))%nat /\ (s_len m <= List.length (a_slots (array_at m (s_cur m))))%nat /\
  (List.length (a_slots (array_at m (s_cur m))) <= a_cap (array_at m (s_cur m)))%nat.
Lemma table_length m : sound m -> List.length (in_table m) = s_len m.
Proof. intros (_ & L & _). unfold in_table. rewrite firstn_length. lia. Qed.
Lemma nth_with m a A b : (a < List.length (s_arrays m))%nat ->
  nth b (with_array m a A) {| a_cap := 0; a_slots := [] |} = if Nat.eqb b a then A else array_at m b.
Proof.
  intros L. unfold with_array, array_at. destruct (Nat.eqb_spec b a) as [->|NE].
  - rewrite app_nth2; rewrite firstn_length, Nat.min_l by lia; [|lia]. rewrite Nat.sub_diag. reflexivity.
  - destruct (Nat.lt_ge_cases b a) as [B|B].
    + rewrite app_nth1 by (rewrite firstn_length; lia).
      rewrite <- (firstn_skipn a (s_arrays m)) at 2. rewrite app_nth1 by (rewrite firstn_length; lia). reflexivity.
    + rewrite app_nth2; rewrite firstn_length, Nat.min_l by lia; [|lia].
      destruct (b - a)%nat as [|d] eqn:D; [lia|]. cbn [nth].
      rewrite <- (firstn_skipn (S a) (s_arrays m)) at 2. rewrite app_nth2; rewrite firstn_length, Nat.min_l by lia; [|lia].
      f_equal. lia.
Qed.
Lemma with_length m a A : (a < List.length (s_arrays m))%nat -> List.length (with_array m a A) = List.length (s_arrays m).
Proof. intros L. unfold with_array. rewrite app_length. cbn [List.length]. rewrite firstn_length, skipn_length. lia. Qed.
Lemma nth_error_put (l : list transfer) n t i : (n <= List.length l)%nat ->
  nth_error (firstn n l ++ t :: skipn (S n) l) i = if Nat.eqb i n then Some t else nth_error l i.
Proof.
  intros L. destruct (Nat.eqb_spec i n) as [->|NE].
  - rewrite nth_error_app2; rewrite firstn_length, Nat.min_l by lia; [|lia]. rewrite Nat.sub_diag. reflexivity.
  - destruct (Nat.lt_ge_cases i n) as [B|B].
    + rewrite nth_error_app1 by (rewrite firstn_length; lia). rewrite <- (firstn_skipn n l) at 2. rewrite nth_error_app1 by (rewrite firstn_length; lia). reflexivity.
    + rewrite nth_error_app2; rewrite firstn_length, Nat.min_l by lia; [|lia]. destruct (i - n)%nat as [|d] eqn:D; [lia|]. cbn [nth_error].
      destruct (Nat.le_gt_cases (List.length l) n) as [X|X].
      * rewrite skipn_all2 by lia. rewrite (proj2 (nth_error_None l i)) by lia. destruct d; reflexivity.
      * rewrite <- (firstn_skipn (S n) l) at 2. rewrite nth_error_app2; rewrite firstn_length, Nat.min_l by lia; [|lia]. f_equal. lia.
Qed.

Section Growing.
Context (grow : nat -> nat) (GR : grows grow).

Lemma append_spec m t : sound m -> let m' := append_slot grow m t in
  sound m' /\ in_table m' = (in_table m ++ [t])%list /\ s_len m' = S (s_len m) /\
  (if Nat.ltb (s_len m) (a_cap (array_at m (s_cur m)))
   then s_cur m' = s_cur m /\ a_cap (array_at m' (s_cur m)) = a_cap (array_at m (s_cur m)) /\
        forall i, points_to m' (s_cur m, i) = if Nat.eqb i (s_len m) then Some t else points_to m (s_cur m, i)
   else s_cur m' <> s_cur m /\ (s_cur m < s_cur m')%nat /\ a_cap (array_at m' (s_cur m')) = grow (a_cap (array_at m (s_cur m)))) /\
  (forall a i, (a < List.length (s_arrays m))%nat -> a <> s_cur m -> points_to m' (a, i) = points_to m (a, i)) /\
  (s_len m = a_cap (array_at m (s_cur m)) -> forall i, points_to m' (s_cur m, i) = points_to m (s_cur m, i)) /\
  (List.length (s_arrays m) <= List.length (s_arrays m'))%nat.
Proof.
  intros (C & L & K) m'. unfold m', append_slot. destruct (Nat.ltb_spec (s_len m) (a_cap (array_at m (s_cur m)))) as [R|R].
  - set (A := {| a_cap := _; a_slots := _ |}).
    assert (AT : forall b, array_at {| s_arrays := with_array m (s_cur m) A; s_cur := s_cur m; s_len := S (s_len m) |} b = if Nat.eqb b (s_cur m) then A else array_at m b)
      by (intros b; unfold array_at at 1; cbn [s_arrays]; apply nth_with; exact C).
    assert (LA : (S (s_len m) <= List.length (a_slots A))%nat /\ (List.length (a_slots A) <= a_cap A)%nat).
    { unfold A. cbn [a_slots a_cap]. rewrite app_length. cbn [List.length]. rewrite firstn_length, skipn_length. lia. }
    split; [|split; [|split; [reflexivity|split; [|split; [|split]]]]].
    + unfold sound. cbn [s_cur s_len s_arrays]. rewrite AT, Nat.eqb_refl, with_length by exact C. tauto.
    + unfold in_table. cbn [s_cur s_len]. rewrite AT, Nat.eqb_refl. unfold A. cbn [a_slots]. rewrite firstn_app, firstn_firstn, firstn_length, Nat.min_r, Nat.min_l by lia.
      replace (S (s_len m) - s_len m)%nat with 1%nat by lia. reflexivity.
    + cbn [s_cur]. rewrite AT, Nat.eqb_refl. split; [reflexivity|]. split; [reflexivity|]. intros i. unfold points_to. cbn [fst snd]. rewrite AT, Nat.eqb_refl. unfold A. cbn [a_slots]. apply nth_error_put. exact L.
    + intros a i _ NE. unfold points_to. cbn [fst snd]. rewrite AT. destruct (Nat.eqb_spec a (s_cur m)); [contradiction|reflexivity].
    + intros E. lia.
    + cbn [s_arrays]. rewrite with_length by exact C. lia.
  - set (A := {| a_cap := _; a_slots := _ |}).
    assert (AT : forall b, (b < List.length (s_arrays m))%nat -> array_at {| s_arrays := (s_arrays m ++ [A])%list; s_cur := List.length (s_arrays m); s_len := S (s_len m) |} b = array_at m b)
      by (intros b B; unfold array_at; cbn [s_arrays]; apply app_nth1; exact B).
    assert (AN : array_at {| s_arrays := (s_arrays m ++ [A])%list; s_cur := List.length (s_arrays m); s_len := S (s_len m) |} (List.length (s_arrays m)) = A)
      by (unfold array_at; cbn [s_arrays]; rewrite app_nth2 by lia; rewrite Nat.sub_diag; reflexivity).
    assert (LT : List.length (in_table m) = s_len m) by (apply table_length; repeat split; assumption).
    assert (LA : List.length (a_slots A) = S (s_len m)) by (unfold A; cbn [a_slots]; rewrite app_length; cbn [List.length]; lia).
    pose proof (GR (a_cap (array_at m (s_cur m)))) as G.
    split; [|split; [|split; [reflexivity|split; [|split; [|split]]]]].
    + unfold sound. cbn [s_cur s_len s_arrays]. rewrite AN, LA. split; [rewrite app_length; cbn [List.length]; lia|]. split; [lia|]. unfold A. cbn [a_cap]. lia.
    + unfold in_table at 1. cbn [s_cur s_len]. rewrite AN. rewrite firstn_all2 by lia. reflexivity.
    + cbn [s_cur]. rewrite AN. split; [lia|]. split; [lia|reflexivity].
    + intros a i B _. unfold points_to. cbn [fst snd]. rewrite AT by exact B. reflexivity.
    + intros E i. unfold points_to. cbn [fst snd]. rewrite AT by exact C. reflexivity.
    + cbn [s_arrays]. rewrite app_length. lia.
Qed.
(** Removing the last one changes nothing in the array *)
Lemma cut_last m i : sound m -> s_len m = S i -> let m' := cut_slot m i in
  sound m' /\ in_table m' = removelast (in_table m) /\ s_cur m' = s_cur m /\ s_len m' = i /\
  a_cap (array_at m' (s_cur m)) = a_cap (array_at m (s_cur m)) /\
  (forall a k, points_to m' (a, k) = points_to m (a, k)) /\ List.length (s_arrays m') = List.length (s_arrays m).
Proof.
  intros (C & L & K) E m'. unfold m', cut_slot. rewrite E. replace (S i - S i)%nat with 0%nat by lia. replace (S i - 1)%nat with i by lia. cbn [firstn app].
  set (A := {| a_cap := _; a_slots := _ |}).
  assert (AE : A = array_at m (s_cur m)) by (unfold A; rewrite firstn_skipn; destruct (array_at m (s_cur m)); reflexivity).
  assert (AT : forall b, array_at {| s_arrays := with_array m (s_cur m) A; s_cur := s_cur m; s_len := i |} b = array_at m b).
  { intros b. unfold array_at at 1. cbn [s_arrays]. rewrite nth_with by exact C. destruct (Nat.eqb_spec b (s_cur m)) as [->|]; [exact AE|reflexivity]. }
  split; [|split; [|split; [reflexivity|split; [reflexivity|split; [|split]]]]].
  - unfold sound. cbn [s_cur s_len s_arrays]. rewrite AT, with_length by exact C. rewrite E in L. repeat split; lia.
  - unfold in_table. cbn [s_cur s_len]. rewrite AT, E. symmetry. apply removelast_firstn. lia.
  - rewrite AT. reflexivity.
  - intros a k. unfold points_to. cbn [fst snd]. rewrite AT. reflexivity.
  - cbn [s_arrays]. apply with_length. exact C.
Qed.
Lemma lookup_found l t : (exists u, In u l /\ same_key t u) -> exists u, tlookup_loop l (tr_direction t) (tr_session t) (udpaddr_string (tr_peer t)) = Some u.
Proof.
  intros H. destruct (tlookup_loop l (tr_direction t) (tr_session t) (udpaddr_string (tr_peer t))) as [u|] eqn:E; [eauto|]. exfalso.
  pose proof (c62_removes_last l t H) as R. unfold tremove in R.
  assert (X : forall n, tremove_loop l t n = None) by (induction n; cbn [tremove_loop]; [reflexivity|rewrite E; assumption]).
  rewrite X in R. discriminate.
Qed.
Lemma lookup_absent l t : (forall u, In u l -> ~ same_key t u) -> tlookup_loop l (tr_direction t) (tr_session t) (udpaddr_string (tr_peer t)) = None.
Proof.
  intros H. destruct (tlookup_loop l (tr_direction t) (tr_session t) (udpaddr_string (tr_peer t))) as [u|] eqn:E; [|reflexivity]. exfalso.
  destruct (c62_absent l t H) as (e & R). unfold tremove in R. destruct l as [|x l]; [discriminate|]. cbn [List.length tremove_loop] in R. rewrite E in R. discriminate.
Qed.
Lemma remove_spec m t : sound m -> let '(m', e) := remove_slot m t in
  sound m' /\ s_cur m' = s_cur m /\ a_cap (array_at m' (s_cur m)) = a_cap (array_at m (s_cur m)) /\
  (forall a k, points_to m' (a, k) = points_to m (a, k)) /\ List.length (s_arrays m') = List.length (s_arrays m) /\
  ((e = false /\ (exists u, In u (in_table m) /\ same_key t u) /\ in_table m' = removelast (in_table m)) \/
   (e = true /\ (forall u, In u (in_table m) -> ~ same_key t u) /\ m' = m)).
Proof.
  intros S. unfold remove_slot. destruct (Exists_dec (same_key t) (in_table m) (key_dec t)) as [E|E].
  - apply Exists_exists in E. destruct (lookup_found _ _ E) as (u & F).
    pose proof (table_length m S) as LT. destruct (s_len m) as [|i] eqn:LE.
    + destruct E as (x & I & _). destruct (in_table m); [destruct I|discriminate].
    + cbn [remove_slot_loop]. rewrite F. destruct (cut_last m i S LE) as (S' & T' & C' & L' & A' & P' & N'). cbv zeta in *.
      split; [exact S'|]. split; [exact C'|]. split; [exact A'|]. split; [exact P'|]. split; [exact N'|]. left. split; [reflexivity|]. split; [exact E|exact T'].
  - assert (A : forall u, In u (in_table m) -> ~ same_key t u) by (intros u I X; apply E, Exists_exists; eauto).
    assert (X : forall n, remove_slot_loop m t n = None) by (induction n; cbn [remove_slot_loop]; [reflexivity|rewrite lookup_absent by exact A; assumption]).
    rewrite X. split; [exact S|]. split; [reflexivity|]. split; [reflexivity|]. split; [reflexivity|]. split; [reflexivity|]. right. auto.
Qed.
Lemma change_spec m c : sound m -> sound (slot_change grow m c) /\ in_table (slot_change grow m c) = do_change (in_table m) c.
Proof.
  intros S. destruct c as [t|t]; cbn [slot_change].
  - destruct (append_spec m t S) as (S' & T' & _). auto.
  - pose proof (remove_spec m t S) as H. destruct (remove_slot m t) as [m' e]. cbn [fst]. destruct H as (S' & _ & _ & _ & _ & [(-> & F & T')|(-> & A & ->)]); split; auto.
    + cbn [do_change]. rewrite c62_removes_last by exact F. exact T'.
    + cbn [do_change]. destruct (c62_absent _ _ A) as (e & ->). reflexivity.
Qed.
Lemma changes_spec cs : forall m, sound m -> sound (slot_changes grow m cs) /\ in_table (slot_changes grow m cs) = do_changes (in_table m) cs.
Proof.
  induction cs as [|c cs IH]; intros m S; [split; [exact S|reflexivity]|]. unfold slot_changes, do_changes. cbn [fold_left].
  destruct (change_spec m c S) as (S' & T'). destruct (IH _ S') as (S2 & T2). split; [exact S2|]. rewrite <- T'. exact T2.
Qed.
Lemma no_slots_sound : sound no_slots.
Proof. unfold sound. cbn. lia. Qed.
Lemma memory_sound cs : sound (memory_after grow cs).
Proof. apply changes_spec, no_slots_sound. Qed.
Lemma memory_table cs : in_table (memory_after grow cs) = do_changes [] cs.
Proof. unfold memory_after. destruct (changes_spec cs no_slots no_slots_sound) as (_ & ->). reflexivity. Qed.
Lemma capacity_memory cs : forall m, sound m -> capacity grow (a_cap (array_at m (s_cur m))) (in_table m) cs (a_cap (array_at (slot_changes grow m cs) (s_cur (slot_changes grow m cs)))).
Proof.
  induction cs as [|c cs IH]; intros m S; [constructor|]. unfold slot_changes. cbn [fold_left]. destruct c as [t|t]; cbn [slot_change].
  - destruct (append_spec m t S) as (S' & T' & L' & C' & _). pose proof (IH _ S') as H. rewrite T' in H.
    destruct (Nat.ltb_spec (s_len m) (a_cap (array_at m (s_cur m)))) as [R|R].
    + destruct C' as (C1 & C2 & _). rewrite C1, C2 in H at 1. apply cp_room; [rewrite table_length by exact S; exact R|exact H].
    + destruct C' as (C1 & C2 & C3). rewrite C3 in H. apply cp_full; [rewrite table_length by exact S; destruct S as (_ & X & Y); lia|exact H].
  - pose proof (remove_spec m t S) as R. pose proof (change_spec m (Removed t) S) as (S' & T'). cbn [slot_change] in S', T'. destruct (remove_slot m t) as [m' e] eqn:E. cbn [fst] in *.
    destruct R as (_ & C' & A' & _). apply cp_less with (in_table m').
    + rewrite T'. apply (changes_changed [Removed t]).
    + pose proof (IH m' S') as H. rewrite C', A' in H at 1. exact H.
Qed.
Lemma capacity_one cap T cs : forall c1 c2, capacity grow cap T cs c1 -> capacity grow cap T cs c2 -> c1 = c2.
Proof.
  revert cap T. induction cs as [|c cs IH]; intros cap T c1 c2 A B; inversion A; subst; inversion B; subst; try lia; eauto.
  match goal with H : changed T _ ?X, H' : changed T _ ?Y |- _ => apply changed_changes in H; apply changed_changes in H'; subst; eauto end.
Qed.

(** ** What a pointer comes to *)
(** An array that is not the one of the table any more is never changed *)
Lemma old_array cs : forall m a i, sound m -> (a < List.length (s_arrays m))%nat -> (a < s_cur m)%nat -> points_to (slot_changes grow m cs) (a, i) = points_to m (a, i).
Proof.
  induction cs as [|c cs IH]; intros m a i S L N; [reflexivity|]. unfold slot_changes. cbn [fold_left]. fold (slot_changes grow (slot_change grow m c) cs).
  destruct c as [t|t]; cbn [slot_change].
  - destruct (append_spec m t S) as (S' & _ & _ & C' & P' & _ & K'). cbv zeta in *. rewrite IH; [apply P'; [exact L|lia]|exact S'|lia|].
    destruct (Nat.ltb (s_len m) (a_cap (array_at m (s_cur m)))); [destruct C' as (-> & _); exact N|destruct C' as (_ & X & _); lia].
  - pose proof (remove_spec m t S) as R. destruct (remove_slot m t) as [m' e]. cbn [fst]. destruct R as (S' & C' & _ & P' & K' & _).
    rewrite IH; [apply P'|exact S'|lia|lia].
Qed.
Lemma pointer_follows cs : forall m i t, sound m -> points_to m (s_cur m, i) = Some t -> (i < a_cap (array_at m (s_cur m)))%nat ->
  exists v, comes_to (a_cap (array_at m (s_cur m))) i (in_table m) t cs v /\ points_to (slot_changes grow m cs) (s_cur m, i) = Some v.
Proof.
  induction cs as [|c cs IH]; intros m i t S P I; [exists t; split; [constructor|exact P]|]. unfold slot_changes. cbn [fold_left]. fold (slot_changes grow (slot_change grow m c) cs).
  destruct c as [u|u]; cbn [slot_change].
  - destruct (append_spec m u S) as (S' & T' & L' & C' & P' & F' & K'). cbv zeta in *.
    destruct (Nat.ltb_spec (s_len m) (a_cap (array_at m (s_cur m)))) as [R|R].
    + destruct C' as (C1 & C2 & C3).
      destruct (IH (append_slot grow m u) i (if Nat.eqb i (s_len m) then u else t) S') as (v & V & Q).
      * rewrite C1, C3. destruct (Nat.eqb i (s_len m)); [reflexivity|exact P].
      * rewrite C1, C2. exact I.
      * rewrite C1, C2, T' in V. rewrite C1 in Q. exists v. split; [|exact Q]. destruct (Nat.eqb_spec i (s_len m)) as [->|NE].
        -- apply ct_place; [apply table_length; exact S|exact R|exact V].
        -- apply ct_other; rewrite ?table_length by exact S; [lia|exact R|exact V].
    + exists t. assert (LE : s_len m = a_cap (array_at m (s_cur m))) by (destruct S as (_ & X & Y); lia).
      split; [apply ct_moved; rewrite table_length by exact S; exact LE|]. destruct C' as (C1 & C2 & _).
      rewrite old_array; [rewrite F' by exact LE; exact P|exact S'|destruct S; lia|exact C2].
  - pose proof (remove_spec m u S) as R. pose proof (change_spec m (Removed u) S) as (S' & T'). cbn [slot_change] in S', T'. destruct (remove_slot m u) as [m' e] eqn:E. cbn [fst] in *.
    destruct R as (_ & C' & A' & P' & _).
    destruct (IH m' i t S') as (v & V & Q); [rewrite C', P'; exact P|rewrite C', A'; exact I|].
    rewrite C' in V at 1. rewrite A' in V. rewrite C' in Q. exists v. split; [|exact Q]. apply ct_less with (in_table m'); [|exact V]. rewrite T'. apply (changes_changed [Removed u]).
Qed.
Lemma comes_one cap i cs : forall T t v w, comes_to cap i T t cs v -> comes_to cap i T t cs w -> v = w.
Proof.
  induction cs as [|c cs IH]; intros T t v w A B; inversion A; subst; inversion B; subst; try lia; try reflexivity; eauto.
  match goal with H : changed T _ ?X, H' : changed T _ ?Y |- _ => apply changed_changes in H; apply changed_changes in H'; subst; eauto end.
Qed.
Lemma points_in m i : sound m -> points_to m (pointer_to m i) = nth_error (in_table m) i \/ (s_len m <= i)%nat.
Proof.
  intros S. destruct (Nat.lt_ge_cases i (s_len m)) as [L|L]; [left|right; exact L]. unfold points_to, pointer_to, in_table. cbn [fst snd].
  destruct S as (_ & X & _). rewrite <- (firstn_skipn (s_len m) (a_slots (array_at m (s_cur m)))) at 1. rewrite nth_error_app1 by (rewrite firstn_length; lia). reflexivity.
Qed.
End Growing.

Lemma slot_changes_app grow m a b : slot_changes grow m (a ++ b) = slot_changes grow (slot_changes grow m a) b.
Proof. unfold slot_changes. apply fold_left_app. Qed.
Lemma memory_app grow a b : memory_after grow (a ++ b) = slot_changes grow (memory_after grow a) b.
Proof. apply slot_changes_app. Qed.
Lemma known grow before T cap : grows grow -> changed [] before T -> capacity grow 0 [] before cap ->
  in_table (memory_after grow before) = T /\ a_cap (array_at (memory_after grow before) (s_cur (memory_after grow before))) = cap.
Proof.
  intros GR C K. split; [rewrite memory_table by exact GR; symmetry; apply changed_changes; exact C|].
  eapply capacity_one; [|exact K]. apply (capacity_memory grow GR before no_slots no_slots_sound).
Qed.
(** C158: the table in its arrays is the table of the other properties: what is started comes to its end, and a removal takes the last one. *)
Lemma c158_table : forall grow history T, grows grow -> (in_table (memory_after grow history) = T <-> changed [] history T).
Proof.
  intros grow history T GR. rewrite memory_table by exact GR. split; [intros <-; apply changes_changed|intros C; symmetry; apply changed_changes; exact C].
Qed.
(** C158: what the pointer that a search returns points to after others have started and removed transfers. *)
Lemma c158_pointer : forall grow before during T cap i t v, grows grow -> changed [] before T -> capacity grow 0 [] before cap -> nth_error T i = Some t ->
  (points_to (memory_after grow (before ++ during)) (pointer_to (memory_after grow before) i) = Some v <-> comes_to cap i T t during v).
Proof.
  intros grow before during T cap i t v GR C K I. destruct (known grow before T cap GR C K) as (TE & KE).
  pose proof (memory_sound grow GR before) as S. set (m := memory_after grow before) in *. rewrite memory_app. fold m. unfold pointer_to.
  assert (IL : (i < List.length T)%nat) by (apply nth_error_Some; congruence). rewrite <- TE in IL, I. rewrite table_length in IL by exact S.
  destruct (points_in m i S) as [P|P]; [|lia]. rewrite I in P. unfold pointer_to in P.
  destruct (pointer_follows grow GR during m i t S P) as (w & W & Q); [destruct S as (_ & X & Y); lia|]. rewrite KE, TE in W. rewrite Q. split.
  - intros E. inversion E; subst. exact W.
  - intros V. f_equal. eapply comes_one; eassumption.
Qed.
Lemma comes_kept cap i cs : forall T t, (List.length T <= cap)%nat -> (forall k T', changed T (firstn k cs) T' -> (i < List.length T')%nat) -> comes_to cap i T t cs t.
Proof.
  induction cs as [|c cs IH]; intros T t L H; [constructor|]. pose proof (H 0%nat T (ch_none T)) as H0.
  assert (H1 : forall T1, changed T [c] T1 -> forall k T', changed T1 (firstn k cs) T' -> (i < List.length T')%nat).
  { intros T1 C k T' C'. apply (H (S k)). cbn [firstn]. change (c :: firstn k cs) with ([c] ++ firstn k cs)%list. apply changed_changes in C, C'. subst. rewrite <- do_changes_app. apply changes_changed. }
  destruct c as [u|u].
  - destruct (Nat.eq_dec (List.length T) cap) as [E|E]; [apply ct_moved; exact E|]. apply ct_other; [lia|lia|]. apply IH; [rewrite app_length; cbn; lia|].
    apply H1. constructor. constructor.
  - apply ct_less with (do_changes T [Removed u]); [apply changes_changed|]. apply IH; [|apply H1; apply changes_changed].
    unfold do_changes. cbn [fold_left]. destruct (remove_one T u) as [(w & _ & _ & ->)|(_ & ->)]; [|exact L].
    destruct T as [|x T _] using rev_ind; [exact L|]. rewrite removelast_last. rewrite app_length in L. lia.
Qed.
Lemma capacity_room grow cap T cs cap' : grows grow -> capacity grow cap T cs cap' -> forall T', (List.length T <= cap)%nat -> changed T cs T' -> (List.length T' <= cap')%nat.
Proof.
  intros GR. induction 1 as [cap T|cap T t cs cap' R H IH|cap T t cs cap' R H IH|cap T T1 t cs cap' C H IH]; intros T' L X.
  - inversion X; subst; exact L.
  - inversion X; subst. apply IH; [rewrite app_length; cbn; lia|assumption].
  - inversion X; subst. apply IH; [rewrite app_length; cbn; pose proof (GR (List.length T)); lia|assumption].
  - apply changed_changes in C, X. subst T1 T'. apply IH.
    + unfold do_changes. cbn [fold_left]. destruct (remove_one T t) as [(w & _ & _ & ->)|(_ & ->)]; [|exact L].
      destruct T as [|x T _] using rev_ind; [exact L|]. rewrite removelast_last. rewrite app_length in L. lia.
    + change (Removed t :: cs) with ([Removed t] ++ cs)%list. rewrite do_changes_app. apply changes_changed.
Qed.
Lemma capacity_some grow before : grows grow -> exists cap, capacity grow 0 [] before cap.
Proof. intros GR. eexists. apply (capacity_memory grow GR before no_slots no_slots_sound). Qed.
(** C158: as long as the table is never so short that the place is free, the pointer points to the transfer that was found. *)
Lemma c158_kept : forall grow before during T i t, grows grow -> changed [] before T -> nth_error T i = Some t ->
  (forall k T', changed T (firstn k during) T' -> (i < List.length T')%nat) ->
  points_to (memory_after grow (before ++ during)) (pointer_to (memory_after grow before) i) = Some t.
Proof.
  intros grow before during T i t GR C I H. destruct (capacity_some grow before GR) as (cap & K).
  apply (c158_pointer grow before during T cap i t t GR C K I). apply comes_kept; [|exact H]. eapply capacity_room; [exact GR|exact K|apply le_n|exact C].
Qed.
Lemma cur_later grow cs : grows grow -> forall m, sound m -> (s_cur m < s_cur (slot_changes grow m cs))%nat \/
  (s_cur (slot_changes grow m cs) = s_cur m /\ a_cap (array_at (slot_changes grow m cs) (s_cur m)) = a_cap (array_at m (s_cur m))).
Proof.
  intros GR. induction cs as [|c cs IH]; intros m S; [right; split; reflexivity|]. unfold slot_changes. cbn [fold_left]. fold (slot_changes grow (slot_change grow m c) cs).
  destruct (change_spec grow GR m c S) as (S' & _). destruct c as [t|t]; cbn [slot_change] in *.
  - destruct (append_spec grow GR m t S) as (_ & _ & _ & C' & _). cbv zeta in C'. destruct (Nat.ltb (s_len m) (a_cap (array_at m (s_cur m)))).
    + destruct C' as (C1 & C2 & _). destruct (IH _ S') as [X|(X & Y)]; rewrite C1 in *; [left; exact X|right]. rewrite C2 in Y. auto.
    + destruct C' as (_ & C1 & _). left. destruct (IH _ S') as [X|(X & _)]; lia.
  - pose proof (remove_spec m t S) as R. destruct (remove_slot m t) as [m' e]. cbn [fst] in *. destruct R as (_ & C' & A' & _).
    destruct (IH _ S') as [X|(X & Y)]; rewrite C' in *; [left; exact X|right]. rewrite A' in Y. auto.
Qed.
(** C158: once the table has outgrown its array the pointer points to the same for ever, whatever is started and removed, also when this
    transfer is no longer in the table. *)
Lemma c158_moved : forall grow before during later T T1 cap i t, grows grow -> changed [] before T -> capacity grow 0 [] before cap -> nth_error T i = Some t ->
  changed T during T1 -> (cap < List.length T1)%nat ->
  let p := pointer_to (memory_after grow before) i in
  points_to (memory_after grow (before ++ during ++ later)) p = points_to (memory_after grow (before ++ during)) p.
Proof.
  intros grow before during later T T1 cap i t GR C K I D L p. destruct (known grow before T cap GR C K) as (TE & KE).
  pose proof (memory_sound grow GR before) as S. rewrite app_assoc, (memory_app grow (before ++ during) later), memory_app. unfold p, pointer_to.
  set (m := memory_after grow before) in *. destruct (changes_spec grow GR during m S) as (S' & T'). rewrite TE in T'. apply changed_changes in D. subst T1. rewrite <- T' in L.
  rewrite table_length in L by exact S'. destruct (cur_later grow during GR m S) as [X|(X & Y)].
  - apply old_array; [exact GR|exact S'|destruct S'; lia|exact X].
  - exfalso. destruct S' as (_ & A & B). rewrite X, Y, KE in B. rewrite X in A. lia.
Qed.
(** C158: rmtran, when it comes to the removal, looks for whatever its pointer points to then: if it is in the table, the last transfer of
    the table is removed and nothing is said; otherwise nothing is removed and there is an error. *)
Lemma c158_removes : forall grow history T p v, grows grow -> changed [] history T -> points_to (memory_after grow history) p = Some v ->
  let '(m, e) := remove_through (memory_after grow history) p in
  (e = false /\ (exists u, In u T /\ same_key v u) /\ in_table m = removelast T) \/ (e = true /\ (forall u, In u T -> ~ same_key v u) /\ in_table m = T).
Proof.
  intros grow history T p v GR C P. unfold remove_through. rewrite P. pose proof (remove_spec (memory_after grow history) v (memory_sound grow GR history)) as R.
  assert (TE : in_table (memory_after grow history) = T) by (apply c158_table; assumption).
  destruct (remove_slot (memory_after grow history) v) as [m e]. rewrite TE in R. destruct R as (_ & _ & _ & _ & _ & [(-> & F & X)|(-> & A & ->)]); [left|right]; auto.
Qed.
(** C158: rmtran finds the last transfer; before it is removed another command removes it, and a new transfer is started.  Then rmtran
    removes the new transfer, which has another session and may have another peer, and says nothing (defect). *)
Lemma c158_wrong : forall grow before T t x u, grows grow -> changed [] before (T ++ [t]) -> (exists w, In w (T ++ [t]) /\ same_key x w) ->
  let m := memory_after grow (before ++ [Removed x; Added u]) in let p := pointer_to (memory_after grow before) (List.length T) in
  in_table m = (T ++ [u])%list /\ points_to m p = Some u /\ exists m', remove_through m p = (m', false) /\ in_table m' = T.
Proof.
  intros grow before T t x u GR C (w & W & SK) m p.
  assert (CH : changed (T ++ [t]) [Removed x; Added u] (T ++ [u])) by (eapply ch_removed; [exact W|exact SK|]; constructor; constructor).
  assert (CB : changed [] (before ++ [Removed x; Added u]) (T ++ [u])).
  { apply changed_changes in C, CH. rewrite CH, C, <- do_changes_app. apply changes_changed. }
  assert (TM : in_table m = (T ++ [u])%list) by (apply c158_table; assumption). split; [exact TM|].
  destruct (capacity_some grow before GR) as (cap & K).
  assert (LC : (List.length (T ++ [t]) <= cap)%nat) by (eapply capacity_room; [exact GR|exact K|apply le_n|exact C]).
  assert (P : points_to m p = Some u).
  { eapply (c158_pointer grow before [Removed x; Added u] (T ++ [t]) cap (List.length T) t u GR C K).
    - rewrite nth_error_app2, Nat.sub_diag by lia. reflexivity.
    - apply ct_less with T; [eapply ch_removed; [exact W|exact SK|constructor]|]. apply ct_place; [reflexivity|rewrite app_length in LC; cbn in LC; lia|constructor]. }
  split; [exact P|]. pose proof (c158_removes grow _ _ p u GR CB P) as R. fold m in R. destruct (remove_through m p) as [m' e].
  destruct R as [(-> & _ & R)|(_ & N & _)].
  - exists m'. split; [reflexivity|]. rewrite R. apply removelast_last.
  - exfalso. apply (N u); [apply in_or_app; right; left; reflexivity|]. repeat split.
Qed.

(** ** Going over the table *)
Lemma range_nth grow n : forall m a k sched j, (j < n)%nat ->
  nth_error (range_from grow m a k n sched) j = Some (points_to (slot_changes grow m (concat (firstn (S j) sched))) (a, (k + j)%nat)).
Proof.
  induction n as [|n IH]; intros m a k sched j L; [lia|]. cbn [range_from]. destruct j as [|j]; cbn [nth_error].
  - rewrite Nat.add_0_r. destruct sched as [|c r]; [reflexivity|]. cbn [firstn concat hd]. rewrite app_nil_r. reflexivity.
  - rewrite IH by lia. replace (S k + j)%nat with (k + S j)%nat by lia. destruct sched as [|c r].
    + cbn [hd tl]. rewrite !firstn_nil. reflexivity.
    + cbn [hd tl]. cbn [firstn concat]. rewrite <- slot_changes_app. reflexivity.
Qed.
Lemma range_length grow n : forall m a k sched, List.length (range_from grow m a k n sched) = n.
Proof. induction n as [|n IH]; intros; cbn [range_from List.length]; [reflexivity|]. rewrite IH. reflexivity. Qed.
Lemma all_some {A} (R : list (option A)) : (forall o, In o R -> exists v, o = Some v) -> exists l, R = map Some l.
Proof.
  induction R as [|o R IH]; intros H; [exists []; reflexivity|]. destruct (H o (or_introl eq_refl)) as (v & ->).
  destruct IH as (l & ->); [intros p P; apply H; right; exact P|]. exists (v :: l). reflexivity.
Qed.
(** C159: a loop by range sees as many transfers as there are at its beginning, and in each place what a pointer to it would show: the
    transfer of the beginning, or one that took its place.  It never goes beyond the end. *)
Lemma c159_range : forall grow before sched T cap, grows grow -> changed [] before T -> capacity grow 0 [] before cap ->
  exists l, range_over grow (memory_after grow before) sched = map Some l /\ List.length l = List.length T /\
    forall k t v, nth_error T k = Some t -> (nth_error l k = Some v <-> comes_to cap k T t (concat (firstn (S k) sched)) v).
Proof.
  intros grow before sched T cap GR C K. pose proof (memory_sound grow GR before) as SO.
  assert (TE : in_table (memory_after grow before) = T) by (apply c158_table; assumption).
  assert (LE : s_len (memory_after grow before) = List.length T) by (rewrite <- TE; symmetry; apply table_length; exact SO).
  unfold range_over. rewrite LE. set (R := range_from _ _ _ _ _ _).
  assert (NR : forall k t, nth_error T k = Some t -> exists v, nth_error R k = Some (Some v) /\ forall w, w = v <-> comes_to cap k T t (concat (firstn (S k) sched)) w).
  { intros k t I. assert (IL : (k < List.length T)%nat) by (apply nth_error_Some; congruence). unfold R. rewrite range_nth by exact IL. cbn [Nat.add].
    rewrite <- memory_app. pose proof (fun v => c158_pointer grow before (concat (firstn (S k) sched)) T cap k t v GR C K I) as P. unfold pointer_to in P.
    destruct (points_to (memory_after grow (before ++ concat (firstn (S k) sched))) (s_cur (memory_after grow before), k)) as [v|] eqn:E.
    - exists v. split; [reflexivity|]. intros w. rewrite <- P. split; congruence.
    - exfalso. destruct (known grow before T cap GR C K) as (_ & KE). rewrite memory_app in E. destruct (points_in (memory_after grow before) k SO) as [X|X]; [|lia].
      rewrite TE, I in X. unfold pointer_to in X.
      destruct (pointer_follows grow GR (concat (firstn (S k) sched)) _ k t SO X) as (v & _ & Q); [destruct SO as (_ & A & B); lia|]. congruence. }
  assert (RL : List.length R = List.length T) by apply range_length.
  destruct (all_some R) as (l & L).
  { intros o O. apply In_nth_error in O. destruct O as (k & O). assert (KL : (k < List.length T)%nat) by (rewrite <- RL; apply nth_error_Some; congruence).
    destruct (nth_error T k) as [t|] eqn:I; [|apply nth_error_None in I; lia]. destruct (NR k t I) as (v & V & _). rewrite O in V. inversion V. eauto. }
  exists l. split; [exact L|]. split; [rewrite <- RL, L, map_length; reflexivity|].
  intros k t v I. destruct (NR k t I) as (w & W & Q). rewrite L, nth_error_map in W. rewrite <- Q. destruct (nth_error l k); [|discriminate]. inversion W. split; congruence.
Qed.
Lemma comes_removals cap i cs : forall T t, removals cs -> comes_to cap i T t cs t.
Proof.
  induction cs as [|c cs IH]; intros T t H; [constructor|]. destruct (H c (or_introl eq_refl)) as (u & ->).
  apply ct_less with (do_changes T [Removed u]); [apply changes_changed|]. apply IH. intros d D. apply H. right. exact D.
Qed.
Lemma concat_part {A} (P : A -> Prop) (sched : list (list A)) k : (forall c, In c (concat sched) -> P c) -> forall c, In c (concat (firstn k sched)) -> P c.
Proof. intros H c I. apply H. rewrite <- (firstn_skipn k sched), concat_app. apply in_or_app. left. exact I. Qed.
(** C159: while transfers are only started, or only removed, a loop by range sees exactly the transfers of its beginning. *)
Lemma c159_steady : forall grow before sched T, grows grow -> changed [] before T -> starts (concat sched) \/ removals (concat sched) ->
  range_over grow (memory_after grow before) sched = map Some T.
Proof.
  intros grow before sched T GR C H. destruct (capacity_some grow before GR) as (cap & K).
  assert (LC : (List.length T <= cap)%nat) by (eapply capacity_room; [exact GR|exact K|apply le_n|exact C]).
  destruct (c159_range grow before sched T cap GR C K) as (l & -> & LL & N). f_equal. apply FileioFacts.nth_error_ext. intros k.
  destruct (nth_error T k) as [t|] eqn:I; [|apply nth_error_None; apply nth_error_None in I; lia].
  apply (N k t t I). assert (KL : (k < List.length T)%nat) by (apply nth_error_Some; congruence).
  destruct H as [H|H].
  - apply comes_kept; [exact LC|]. intros j T' X. apply changed_changes in X. subst T'.
    destruct (starts_grow (firstn j (concat (firstn (S k) sched))) T) as (more & ->); [|rewrite app_length; lia].
    intros c I'. apply (concat_part (fun c => exists t, c = Added t) sched (S k) H). rewrite <- (firstn_skipn j (concat (firstn (S k) sched))). apply in_or_app. left. exact I'.
  - apply comes_removals. exact (concat_part (fun c => exists t, c = Removed t) sched (S k) H).
Qed.
Lemma objects_dec (blocked : bool) (peer : udpaddr) (fname : string) (t : transfer) :
  (tr_conn t = None) \/ (tr_conn t <> None /\ (if blocked then true else String.eqb fname (tr_filename t) && String.eqb (udpaddr_string peer) (udpaddr_string (tr_peer t))) = true /\ objects blocked peer fname t) \/
  (tr_conn t <> None /\ blocked = false /\ String.eqb fname (tr_filename t) && String.eqb (udpaddr_string peer) (udpaddr_string (tr_peer t)) = false /\ ~ objects blocked peer fname t).
Proof.
  unfold objects. destruct (tr_conn t) as [c|]; [right|left; reflexivity]. destruct blocked; [left; repeat split; auto; discriminate|].
  destruct (String.eqb_spec fname (tr_filename t)); destruct (String.eqb_spec (udpaddr_string peer) (udpaddr_string (tr_peer t))); cbn [andb].
  1: left; repeat split; auto; discriminate.
  all: right; repeat split; auto; try discriminate; intros [X|[X|(X & Y)]]; try discriminate; congruence.
Qed.
Lemma check_judged grow blocked peer fname n : forall m a k sched l, range_from grow m a k n sched = map Some l ->
  exists v, check_from grow m a k n sched blocked peer fname = Ret v /\ judged blocked peer fname l v.
Proof.
  induction n as [|n IH]; intros m a k sched l R; cbn [range_from check_from] in *.
  - destruct l; [|discriminate]. exists Accepted. split; [reflexivity|]. constructor. intros t [].
  - destruct l as [|t l]; [discriminate|]. cbn [map] in R. inversion R as [[P Q]]. rewrite P.
    destruct (objects_dec blocked peer fname t) as [N|[(N & B & O)|(N & B & E & O)]].
    + rewrite N. eexists. split; [reflexivity|]. apply (ju_unconnected _ _ _ _ [] t l); [reflexivity|intros u []|exact N].
    + destruct (tr_conn t) as [cn|] eqn:CN; [|congruence]. exists Refused. split.
      * destruct blocked; [reflexivity|]. rewrite B. reflexivity.
      * apply (ju_refused _ _ _ _ [] t l); [reflexivity|intros u []|congruence|exact O].
    + destruct (tr_conn t) as [cn|] eqn:CN; [|congruence]. rewrite B, E. rewrite <- B. destruct (IH _ _ _ _ _ Q) as (v & -> & J). exists v. split; [reflexivity|].
      inversion J as [A|bf u af L F X|bf u af L F X Y]; subst.
      * constructor. intros w [<-|W]; [exact O|apply A; exact W].
      * apply (ju_unconnected _ _ _ _ (t :: bf) u af); [reflexivity|intros w [<-|W]; [exact O|apply F; exact W]|exact X].
      * apply (ju_refused _ _ _ _ (t :: bf) u af); [reflexivity|intros w [<-|W]; [exact O|apply F; exact W]|exact X|exact Y].
Qed.
(** C159: the check before a transfer is started decides by the transfers that the loop sees, and never ends the program. *)
Lemma c159_check : forall grow before sched blocked peer fname, grows grow ->
  exists l v, range_over grow (memory_after grow before) sched = map Some l /\
    check_over grow (memory_after grow before) sched blocked peer fname = Ret v /\ judged blocked peer fname l v.
Proof.
  intros grow before sched blocked peer fname GR. destruct (capacity_some grow before GR) as (cap & K).
  destruct (c159_range grow before sched _ cap GR (changes_changed before []) K) as (l & R & _). exists l.
  destruct (check_judged grow blocked peer fname _ _ _ _ _ _ R) as (v & V & J). exists v. auto.
Qed.
(** C159: so a transfer that is started meanwhile is not noticed: if there is no objection in the table at the beginning, the same file
    may be started to the same peer twice, however the two starts are interleaved (defect); and one that is removed meanwhile still is
    an objection. *)
Lemma c159_unnoticed : forall grow before sched blocked peer fname T v, grows grow -> changed [] before T -> starts (concat sched) \/ removals (concat sched) ->
  (check_over grow (memory_after grow before) sched blocked peer fname = Ret v <-> judged blocked peer fname T v).
Proof.
  intros grow before sched blocked peer fname T v GR C H. pose proof (c159_steady grow before sched T GR C H) as R.
  destruct (check_judged grow blocked peer fname _ _ _ _ _ _ R) as (w & W & J). unfold check_over. rewrite W. split.
  - intros E. inversion E; subst. exact J.
  - intros V. f_equal.
    assert (ONE : forall l v w, judged blocked peer fname l v -> judged blocked peer fname l w -> v = w).
    { clear. induction l as [|t l IH]; intros v w A B.
      - inversion A as [|b t a L|b t a L]; try (destruct b; discriminate). inversion B as [|b t a L|b t a L]; try (destruct b; discriminate). reflexivity.
      - assert (OT : tr_conn t = None -> objects blocked peer fname t) by (intros X; left; exact X).
        assert (HD : forall v, judged blocked peer fname (t :: l) v -> (objects blocked peer fname t /\ v = (match tr_conn t with None => Unconnected t | Some _ => Refused end)) \/ (~ objects blocked peer fname t /\ judged blocked peer fname l v)).
        { intros x J. inversion J as [N|b u a L F X|b u a L F X Y].
          - right. split; [apply N; left; reflexivity|]. constructor. intros z Z. apply N. right. exact Z.
          - destruct b as [|b0 b]; inversion L; subst.
            + left. rewrite X. auto.
            + right. split; [apply F; left; reflexivity|]. apply (ju_unconnected _ _ _ _ b u a); [reflexivity|intros z Z; apply F; right; exact Z|exact X].
          - destruct b as [|b0 b]; inversion L; subst.
            + left. split; [exact Y|]. destruct (tr_conn u); [reflexivity|congruence].
            + right. split; [apply F; left; reflexivity|]. apply (ju_refused _ _ _ _ b u a); [reflexivity|intros z Z; apply F; right; exact Z|exact X|exact Y]. }
        destruct (HD v A) as [(O & ->)|(O & A')]; destruct (HD w B) as [(O' & ->)|(O' & B')]; try contradiction; [reflexivity|]. apply IH; assumption. }
    apply (ONE T); assumption.
Qed.

(** The growth of small tables: 1, 2, 4, 8... *)
Definition ex_grow (n : nat) : nat := match n with O => 1 | _ => n + n end.
Lemma ex_grows : grows ex_grow.
Proof. intros [|n]; cbn; lia. Qed.
(** Three transfers in an array of four; rmtran has found the last one, session 9.  Then it is removed by another command and session 10 is
    started; or the table first outgrows the array. *)
Example c158_ex :
  let t7 := ex_transfer 7 ex_peer "a" in let t8 := ex_transfer 8 ex_peer2 "b" in let t9 := ex_transfer 9 ex_peer "c" in
  let t10 := ex_transfer 10 ex_peer2 "d" in let t11 := ex_transfer 11 ex_peer2 "e" in
  let before := [Added t7; Added t8; Added t9] in
  let p := pointer_to (memory_after ex_grow before) 2 in
  let ends during := let m := memory_after ex_grow (before ++ during) in
    (map tr_session (in_table m), option_map tr_session (points_to m p), map tr_session (in_table (fst (remove_through m p))), snd (remove_through m p)) in
  changed [] before [t7; t8; t9] /\ capacity ex_grow 0 [] before 4 /\
  ends [] = ([7; 8; 9], Some 9, [7; 8], false) /\
  ends [Added t10] = ([7; 8; 9; 10], Some 9, [7; 8; 9], false) /\
  ends [Removed t9] = ([7; 8], Some 9, [7; 8], true) /\
  ends [Removed t9; Added t10] = ([7; 8; 10], Some 10, [7; 8], false) /\
  ends [Added t10; Added t11; Removed t11; Removed t10; Removed t9; Added t10] = ([7; 8; 10], Some 9, [7; 8; 10], true).
Proof.
  cbv zeta. split; [repeat constructor|]. split.
  { apply cp_full; [reflexivity|]. apply cp_full; [reflexivity|]. apply cp_full; [reflexivity|]. apply cp_end. }
  repeat split; vm_compute; reflexivity.
Qed.
(** The same file is started to the same peer by two commands at once; and a transfer is refused because of one that is gone *)
Example c159_ex :
  let t7 := ex_transfer 7 ex_peer "a" in let t8 := ex_transfer 8 ex_peer "new" in
  let m := memory_after ex_grow [Added t7; Added t8] in
  starts (concat [[Added (ex_transfer 9 ex_peer "new2")]]) /\ removals (concat [[]; [Removed t8]]) /\
  check_over ex_grow m [[Added (ex_transfer 9 ex_peer "new2")]] false ex_peer "new2" = Ret Accepted /\
  check_over ex_grow m [[]; [Removed t8]] false ex_peer "new" = Ret Refused /\
  map (option_map tr_session) (range_over ex_grow m [[]; [Removed t8; Added (ex_transfer 9 ex_peer2 "z")]]) = [Some 7; Some 9].
Proof.
  cbv zeta. split; [intros c [<-|[]]; eauto|]. split; [intros c [<-|[]]; eauto|]. repeat split; vm_compute; reflexivity.
Qed.
