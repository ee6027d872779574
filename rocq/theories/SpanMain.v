(** * C165: going over the table of transfers while its slice is assigned *)

From Verif Require Import GoBase Transfer SpecTransfer TransferMain Tranlist SpecTranlist TranlistMain Slots SpecSlots SlotsMain Torn SpecTorn TornFacts Span SpecSpan.
From Coq Require Import Lia PeanoNat.
Local Open Scope string_scope.
Local Open Scope N_scope.

Lemma nth_words m ts i : (i <= List.length ts)%nat -> exists mi, nth_error (m :: ts) i = Some mi /\ nth_hdr (table_words m) (map table_words ts) i = table_words mi.
Proof.
  intros L. destruct i as [|i]; [exists m; auto|]. cbn [nth_error]. destruct (nth_error ts i) as [mi|] eqn:E; [|apply nth_error_None in E; lia].
  exists mi. split; [reflexivity|]. unfold nth_hdr. cbn [nth]. apply nth_error_nth, map_nth_error, E.
Qed.
Lemma span_exact : forall first_w first_r grow m cs a n,
  (exists sched, range_words (copy_run sched (range_begin first_w first_r grow m cs)) = Some (a, n)) <->
  (exists i j mi mj, nth_error (m :: tables grow m cs) i = Some mi /\ nth_error (m :: tables grow m cs) j = Some mj /\ together first_w first_r i j /\
     a = s_cur mi /\ n = s_len mj).
Proof.
  intros first_w first_r grow m cs a n. set (ts := tables grow m cs). set (hs := map table_words ts).
  assert (LH : List.length hs = List.length ts) by apply map_length.
  assert (B : range_begin first_w first_r grow m cs = at_step first_w (table_words m) hs 0 (both first_r) {| sh_ptr := 0; sh_len := 0 |}).
  { unfold range_begin, at_step. fold ts. replace (writes first_w hs) with (flat_map (fun m' => map (fun w => (w, table_words m')) (both first_w)) ts).
    - cbn [skipn]. f_equal. destruct first_w; reflexivity.
    - unfold hs, writes. generalize ts. induction ts0 as [|x r IH]; [reflexivity|]. cbn [flat_map map]. now rewrite IH. }
  rewrite B. pose proof (fun r => copies first_w (table_words m) hs first_r {| sh_ptr := 0; sh_len := 0 |} r) as C. cbn zeta in C. split.
  - intros (sched & E). unfold range_words in E. destruct (cy_read _) eqn:R in E; [|discriminate]. inversion E as [[EA EN]].
    destruct (proj1 (C _) (ex_intro _ sched (conj R eq_refl))) as (i & j & I & J & G & V). rewrite LH in I, J.
    destruct (nth_words m ts i I) as (mi & Mi & Hi). destruct (nth_words m ts j J) as (mj & Mj & Hj). fold hs in Hi, Hj. rewrite Hi, Hj in V.
    exists i, j, mi, mj. rewrite V. auto.
  - intros (i & j & mi & mj & Mi & Mj & G & -> & ->).
    assert (K : forall k x, nth_error (m :: ts) k = Some x -> (k <= List.length ts)%nat).
    { intros k x X. assert (Y : nth_error (m :: ts) k <> None) by congruence. apply nth_error_Some in Y. cbn [List.length] in Y. lia. }
    destruct (nth_words m ts i (K _ _ Mi)) as (x & X & Hx). destruct (nth_words m ts j (K _ _ Mj)) as (y & Y & Hy). fold hs in Hx, Hy.
    assert (x = mi) as -> by congruence. assert (y = mj) as -> by congruence.
    destruct (proj2 (C {| sh_ptr := s_cur mi; sh_len := s_len mj |})) as (sched & R & E).
    { exists i, j. rewrite LH, Hx, Hy. repeat split; [eapply K, Mi|eapply K, Mj|exact G]. }
    exists sched. unfold range_words. now rewrite R, E.
Qed.

(** Capacities do not change *)
Lemma change_caps grow m c a : sound m -> (a < List.length (s_arrays m))%nat ->
  (a < List.length (s_arrays (slot_change grow m c)))%nat /\ a_cap (array_at (slot_change grow m c) a) = a_cap (array_at m a).
Proof.
  intros S L. pose proof (proj1 S) as C. destruct c as [t|t]; cbn [slot_change].
  - unfold append_slot. destruct (Nat.ltb _ _).
    + split; [cbn [s_arrays]; now rewrite with_length|]. unfold array_at at 1. cbn [s_arrays]. rewrite nth_with by exact C. destruct (Nat.eqb_spec a (s_cur m)) as [->|]; reflexivity.
    + cbn [s_arrays]. split; [rewrite app_length; lia|]. unfold array_at at 1. cbn [s_arrays]. rewrite app_nth1 by exact L. reflexivity.
  - unfold remove_slot. destruct (remove_slot_loop m t (s_len m)) as [m'|] eqn:E; cbn [fst]; [|auto].
    assert (Q : forall n, remove_slot_loop m t n = Some m' -> exists i, m' = cut_slot m i).
    { induction n as [|n IH]; cbn [remove_slot_loop]; [discriminate|]. destruct (tlookup_loop _ _ _ _); [|exact IH]. intros H. exists n. congruence. }
    destruct (Q _ E) as (i & ->). unfold cut_slot. cbn [s_arrays]. split; [now rewrite with_length|]. unfold array_at at 1. cbn [s_arrays]. rewrite nth_with by exact C.
    destruct (Nat.eqb_spec a (s_cur m)) as [->|]; reflexivity.
Qed.
Definition cap_of (m : slots) : nat := a_cap (array_at m (s_cur m)).
Lemma sound_room m : sound m -> (s_len m <= cap_of m)%nat.
Proof. intros (_ & A & B). unfold cap_of. lia. Qed.
Lemma change_room grow m c : grows grow -> sound m -> (cap_of m <= cap_of (slot_change grow m c))%nat.
Proof.
  intros GR S. unfold cap_of. destruct c as [t|t]; cbn [slot_change].
  - destruct (append_spec grow GR m t S) as (_ & _ & _ & C & _). cbv zeta in C. destruct (Nat.ltb _ _).
    + destruct C as (-> & -> & _). lia.
    + destruct C as (_ & _ & ->). pose proof (GR (a_cap (array_at m (s_cur m)))). lia.
  - pose proof (remove_spec m t S) as H. destruct (remove_slot m t) as [m' e]. cbn [fst]. destruct H as (_ & -> & -> & _). lia.
Qed.
(** The tables, seen from the end *)
Lemma tables_spec grow cs : grows grow -> forall m, sound m -> let final := slot_changes grow m cs in
  (forall a, (a < List.length (s_arrays m))%nat -> a_cap (array_at final a) = a_cap (array_at m a)) /\
  (forall i mi, nth_error (m :: tables grow m cs) i = Some mi -> (s_len mi <= cap_of mi)%nat /\ (cap_of m <= cap_of mi)%nat /\ a_cap (array_at final (s_cur mi)) = cap_of mi) /\
  (forall i j mi mj, nth_error (m :: tables grow m cs) i = Some mi -> nth_error (m :: tables grow m cs) j = Some mj -> (i <= j)%nat -> (cap_of mi <= cap_of mj)%nat).
Proof.
  intros GR. induction cs as [|c cs IH]; intros m S final.
  - split; [reflexivity|]. split.
    + intros [|i] mi E; [|destruct i; discriminate]. inversion E; subst mi. split; [now apply sound_room|]. split; [lia|reflexivity].
    + intros [|i] [|j] mi mj E F L; try (destruct i; discriminate E); try (destruct j; discriminate F). assert (mj = mi) as -> by (cbn in *; congruence). lia.
  - destruct (change_spec grow GR m c S) as (S' & _). pose proof (change_room grow m c GR S) as CR.
    assert (CC := fun a => change_caps grow m c a S). destruct (IH _ S') as (A & B & D). clear IH. cbv zeta in A, B, D.
    change (slot_changes grow (slot_change grow m c) cs) with final in A, B.
    assert (A' : forall a, (a < List.length (s_arrays m))%nat -> a_cap (array_at final a) = a_cap (array_at m a)).
    { intros a L. destruct (CC a L) as (L' & E). rewrite A by exact L'. exact E. }
    assert (T : tables grow m (c :: cs) = slot_change grow m c :: tables grow (slot_change grow m c) cs \/ (slot_change grow m c = m /\ tables grow m (c :: cs) = tables grow m cs)).
    { destruct c as [t|t]; cbn [tables slot_change]; [now left|]. pose proof (remove_spec m t S) as H. destruct (remove_slot m t) as [m' e]. cbn [fst].
      destruct H as (_ & _ & _ & _ & _ & [(-> & _)|(-> & _ & ->)]); [now left|right; auto]. }
    split; [exact A'|]. destruct T as [->|(E & ->)].
    + split.
      * intros [|i] mi E; cbn [nth_error] in E.
        -- inversion E; subst mi. split; [now apply sound_room|]. split; [lia|]. apply A', S.
        -- destruct (B i mi E) as (B1 & B2 & B3). split; [exact B1|]. split; [lia|exact B3].
      * intros [|i] [|j] mi mj E F L; cbn [nth_error] in E, F; try lia.
        -- assert (mj = mi) as -> by congruence. lia.
        -- inversion E; subst mi. destruct (B j mj F) as (_ & B2 & _). lia.
        -- apply (D i j); [exact E|exact F|lia].
    + rewrite E in B, D. split; [exact B|exact D].
Qed.
Lemma tables_assigned grow cs : grows grow -> forall m a cap T l a' cap' T', sound m -> S (s_cur m) = List.length (s_arrays m) ->
  s_cur m = a -> cap_of m = cap -> in_table m = T -> assigned grow a cap T cs l a' cap' T' ->
  map (fun m => (s_cur m, s_len m)) (tables grow m cs) = l /\
  let final := slot_changes grow m cs in S (s_cur final) = List.length (s_arrays final) /\ s_cur final = a' /\ cap_of final = cap' /\ in_table final = T'.
Proof.
  intros GR m a cap T l a' cap' T' S N EA EC ET H. revert m S N EA EC ET.
  induction H as [a cap T|a cap T t cs l a' cap' T' L H IH|a cap T t cs l a' cap' T' L H IH|a cap T x t u cs l a' cap' T' I K H IH|a cap T t cs l a' cap' T' K H IH]; intros m S N EA EC ET.
  - split; [reflexivity|]. cbv zeta. auto.
  - destruct (append_spec grow GR m t S) as (S' & T1 & L1 & C & _). cbv zeta in *. pose proof (table_length m S) as TL. rewrite ET in TL.
    assert (N1 : Datatypes.S (s_cur (append_slot grow m t)) = List.length (s_arrays (append_slot grow m t))).
    { unfold append_slot. replace (Nat.ltb _ _) with true by (symmetry; apply Nat.ltb_lt; unfold cap_of in EC; lia). cbn [s_cur s_arrays]. rewrite with_length by apply S. exact N. }
    replace (Nat.ltb _ _) with true in C by (symmetry; apply Nat.ltb_lt; unfold cap_of in EC; lia). destruct C as (C1 & C2 & _).
    destruct (IH (append_slot grow m t) S' N1) as (A & B); [congruence|unfold cap_of in *; rewrite C1, C2; exact EC|rewrite T1, ET; reflexivity|].
    split; [|exact B]. cbn [tables map]. rewrite A, C1, L1, EA, TL. reflexivity.
  - destruct (append_spec grow GR m t S) as (S' & T1 & L1 & C & _). cbv zeta in *. pose proof (table_length m S) as TL. rewrite ET in TL.
    assert (F : Nat.ltb (s_len m) (a_cap (array_at m (s_cur m))) = false) by (apply Nat.ltb_ge; unfold cap_of in EC; lia).
    assert (N1 : Datatypes.S (s_cur (append_slot grow m t)) = List.length (s_arrays (append_slot grow m t)) /\ s_cur (append_slot grow m t) = Datatypes.S a).
    { unfold append_slot. rewrite F. cbn [s_cur s_arrays]. rewrite app_length. cbn [List.length]. lia. }
    rewrite F in C. destruct C as (_ & _ & C2). destruct N1 as (N1 & N2).
    destruct (IH (append_slot grow m t) S' N1) as (A & B); [exact N2|unfold cap_of in *; rewrite C2, EC; reflexivity|rewrite T1, ET; reflexivity|].
    split; [|exact B]. cbn [tables map]. rewrite A, N2, L1, TL. reflexivity.
  - pose proof (remove_spec m t S) as R. pose proof (table_length m S) as TL. cbn [tables]. unfold slot_changes. cbn [fold_left slot_change]. destruct (remove_slot m t) as [m' e] eqn:RE. cbn [fst].
    destruct R as (S' & C' & A' & _ & N' & [(-> & _ & T1)|(-> & X & _)]); [|exfalso; apply (X u); [rewrite ET; exact I|exact K]].
    rewrite ET, removelast_last in T1. pose proof (table_length m' S') as TL'. rewrite T1 in TL'.
    destruct (IH m' S') as (A & B); [rewrite C', N'; exact N|congruence|unfold cap_of in *; rewrite C', A'; exact EC|exact T1|].
    split; [|exact B]. cbn [map]. rewrite A, C', EA, TL'. reflexivity.
  - pose proof (remove_spec m t S) as R. cbn [tables]. unfold slot_changes. cbn [fold_left slot_change]. destruct (remove_slot m t) as [m' e] eqn:RE. cbn [fst].
    destruct R as (_ & _ & _ & _ & _ & [(-> & (u & U1 & U2) & _)|(-> & _ & ->)]); [exfalso; apply (K u); [rewrite <- ET; exact U1|exact U2]|].
    apply (IH m S N EA EC ET).
Qed.
(** C165: what a loop over the table may go over while others start and remove transfers: exactly the array of one of the tables that
    were assigned with the length of another, restricted only by the order in which the two words are accessed *)
Lemma c165_exact : forall first_w first_r grow history cs l0 a cap T l a' cap' T' x n, grows grow ->
  assigned grow 0 0 [] history l0 a cap T -> assigned grow a cap T cs l a' cap' T' ->
  (exists sched, range_words (copy_run sched (range_begin first_w first_r grow (memory_after grow history) cs)) = Some (x, n)) <->
  (exists i j y k, nth_error ((a, List.length T) :: l) i = Some (x, y) /\ nth_error ((a, List.length T) :: l) j = Some (k, n) /\ together first_w first_r i j).
Proof.
  intros first_w first_r grow history cs l0 a cap T l a' cap' T' x n GR H0 H.
  destruct (tables_assigned grow history GR no_slots _ _ _ _ _ _ _ no_slots_sound eq_refl eq_refl eq_refl eq_refl H0) as (_ & N & EA & EC & ET). cbv zeta in *.
  change (slot_changes grow no_slots history) with (memory_after grow history) in *. set (m := memory_after grow history) in *.
  pose proof (memory_sound grow GR history) as S. fold m in S. destruct (tables_assigned grow cs GR m _ _ _ _ _ _ _ S N EA EC ET H) as (M & _).
  rewrite span_exact. pose proof (table_length m S) as TL. rewrite ET in TL.
  assert (Q : (a, List.length T) :: l = map (fun m => (s_cur m, s_len m)) (m :: tables grow m cs)) by (cbn [map]; rewrite M, EA, TL; reflexivity).
  rewrite Q. split.
  - intros (i & j & mi & mj & Mi & Mj & G & -> & ->). exists i, j, (s_len mi), (s_cur mj). rewrite (map_nth_error _ _ _ Mi), (map_nth_error _ _ _ Mj). auto.
  - intros (i & j & y & k & Mi & Mj & G).
    assert (U : forall p q z, nth_error (map (fun m => (s_cur m, s_len m)) (m :: tables grow m cs)) z = Some (p, q) -> exists mz, nth_error (m :: tables grow m cs) z = Some mz /\ p = s_cur mz /\ q = s_len mz).
    { intros p q z Z. destruct (nth_error (m :: tables grow m cs) z) as [mz|] eqn:E.
      - rewrite (map_nth_error _ _ _ E) in Z. inversion Z. eauto.
      - apply nth_error_None in E. assert (V : nth_error (map (fun m => (s_cur m, s_len m)) (m :: tables grow m cs)) z <> None) by congruence. apply nth_error_Some in V. rewrite map_length in V. lia. }
    destruct (U _ _ _ Mi) as (mi & A1 & A2 & A3). destruct (U _ _ _ Mj) as (mj & B1 & B2 & B3). exists i, j, mi, mj. auto.
Qed.
(** C165: every history of starts and removals assigns some arrays and lengths *)
Lemma c165_history : forall grow history a cap T, grows grow -> (List.length T <= cap)%nat -> exists l a' cap' T', assigned grow a cap T history l a' cap' T'.
Proof.
  intros grow history a cap T GR. revert a cap T. induction history as [|c cs IH]; intros a cap T L; [eexists _, _, _, _; constructor|]. destruct c as [t|t].
  - destruct (Nat.lt_ge_cases (List.length T) cap) as [R|R].
    + destruct (IH a cap (T ++ [t])%list) as (l & a' & cap' & T' & H); [rewrite app_length; cbn; lia|]. eexists _, _, _, _. eapply as_room; eauto.
    + destruct (IH (S a) (grow cap) (T ++ [t])%list) as (l & a' & cap' & T' & H); [rewrite app_length; cbn; pose proof (GR cap); lia|]. eexists _, _, _, _. eapply as_full; eauto.
  - destruct (Exists_dec (same_key t) T (key_dec t)) as [E|E].
    + apply Exists_exists in E. destruct E as (u & I & K). destruct (exists_last (l := T)) as (T0 & x & ->); [intros ->; destruct I|].
      rewrite app_length in L. cbn in L. destruct (IH a cap T0) as (l & a' & cap' & T' & H); [lia|]. eexists _, _, _, _. eapply as_removed; eauto.
    + destruct (IH a cap T L) as (l & a' & cap' & T' & H). eexists _, _, _, _. eapply as_absent; [|exact H]. intros u I K. apply E, Exists_exists. eauto.
Qed.
(** C165: written array first and read length first, the two words never let the loop go beyond the end of its array *)
Lemma c165_order : forall grow history cs sched a n, grows grow ->
  range_words (copy_run sched (range_begin Where Size grow (memory_after grow history) cs)) = Some (a, n) ->
  (n <= a_cap (array_at (memory_after grow (history ++ cs)) a))%nat.
Proof.
  intros grow history cs sched a n GR E.
  destruct (proj1 (span_exact Where Size grow (memory_after grow history) cs a n) (ex_intro _ sched E)) as (i & j & mi & mj & Mi & Mj & G & -> & ->).
  destruct (tables_spec grow cs GR _ (memory_sound grow GR history)) as (_ & B & D). cbv zeta in B. rewrite memory_app.
  destruct (B _ _ Mi) as (_ & _ & ->). destruct (B _ _ Mj) as (L & _). pose proof (D _ _ _ _ Mj Mi G). lia.
Qed.
(** C165: nor does it in any order, if transfers are only removed *)
Lemma c165_removals : forall first_w first_r grow history cs sched a n, grows grow -> removals cs ->
  range_words (copy_run sched (range_begin first_w first_r grow (memory_after grow history) cs)) = Some (a, n) ->
  (n <= a_cap (array_at (memory_after grow (history ++ cs)) a))%nat.
Proof.
  intros first_w first_r grow history cs sched a n GR RM E.
  destruct (proj1 (span_exact first_w first_r grow (memory_after grow history) cs a n) (ex_intro _ sched E)) as (i & j & mi & mj & Mi & Mj & _ & -> & ->).
  pose proof (memory_sound grow GR history) as S0. destruct (tables_spec grow cs GR _ S0) as (_ & B & _). cbv zeta in B. rewrite memory_app.
  destruct (B _ _ Mi) as (_ & CI & ->). destruct (B _ _ Mj) as (L & _).
  assert (Q : forall cs, removals cs -> forall m, sound m -> forall j mj, nth_error (m :: tables grow m cs) j = Some mj -> cap_of mj = cap_of m).
  { clear - GR. induction cs as [|c cs IH]; intros RM m S j mj E; [destruct j as [|[|j]]; inversion E; reflexivity|].
    destruct j as [|j]; [inversion E; reflexivity|]. destruct (RM c (or_introl eq_refl)) as (t & ->).
    assert (RM' : removals cs) by (intros c I; apply RM; now right). cbn [tables nth_error] in E. pose proof (remove_spec m t S) as H. destruct (remove_slot m t) as [m' e].
    destruct H as (S' & C' & A' & _). destruct e.
    - apply (IH RM' m S (Datatypes.S j) mj). exact E.
    - rewrite (IH RM' m' S' j mj E). unfold cap_of. now rewrite C'. }
  rewrite (Q cs RM _ S0 _ _ Mj) in L. lia.
Qed.
(** C165: in the other orders, when the table fills its array and one transfer is started, the loop may go over one element more than
    the array has; an array has been filled when the very first transfer is started *)
Lemma c165_beyond : forall first_w first_r grow history T cap t, grows grow -> (first_w, first_r) <> (Where, Size) ->
  changed [] history T -> capacity grow 0 [] history cap -> List.length T = cap ->
  exists sched a, range_words (copy_run sched (range_begin first_w first_r grow (memory_after grow history) [Added t])) = Some (a, S cap) /\
    a_cap (array_at (memory_after grow (history ++ [Added t])) a) = cap.
Proof.
  intros first_w first_r grow history T cap t GR NE CH CP F. pose proof (memory_sound grow GR history) as S0.
  destruct (known grow history T cap GR CH CP) as (KT & KC). set (m := memory_after grow history) in *.
  assert (LT : s_len m = cap) by (rewrite <- (table_length m S0); rewrite KT; exact F).
  destruct (append_spec grow GR m t S0) as (_ & _ & L' & _). cbv zeta in L'.
  destruct (proj2 (span_exact first_w first_r grow m [Added t] (s_cur m) (S cap))) as (sched & E).
  { exists 0%nat, 1%nat, m, (append_slot grow m t). split; [reflexivity|]. split; [reflexivity|]. split; [destruct first_w, first_r; cbn [together]; try lia; now destruct NE|].
    split; [reflexivity|]. now rewrite L', LT. }
  exists sched, (s_cur m). split; [exact E|]. rewrite memory_app. fold m.
  destruct (tables_spec grow [Added t] GR m S0) as (A & _). cbv zeta in A. rewrite A by apply S0. exact KC.
Qed.
(** Two transfers fill an array of two, and a third is started while a loop begins *)
Example c165_beyond_ex :
  let t7 := ex_transfer 7 ex_peer "a" in let t8 := ex_transfer 8 ex_peer2 "b" in let t9 := ex_transfer 9 ex_peer "c" in
  let history := [Added t7; Added t8] in
  changed [] history [t7; t8] /\ capacity ex_grow 0 [] history 2 /\
  range_words (copy_run [true; false; true; false] (range_begin Size Where ex_grow (memory_after ex_grow history) [Added t9])) = Some (2%nat, 3%nat) /\
  a_cap (array_at (memory_after ex_grow (history ++ [Added t9])) 2) = 2%nat.
Proof.
  cbv zeta. split; [|split; [|split; vm_compute; reflexivity]].
  - repeat constructor.
  - apply (capacity_memory ex_grow ex_grows [Added _; Added _] no_slots no_slots_sound).
Qed.
(** The very first transfer *)
Example c165_beyond_first_ex : changed [] [] [] /\ capacity ex_grow 0 [] [] 0.
Proof. split; [constructor|apply (capacity_memory ex_grow ex_grows [] no_slots no_slots_sound)]. Qed.
(** With the safe order, and with removals, loops that have begun *)
Example c165_order_ex :
  let t7 := ex_transfer 7 ex_peer "a" in let t8 := ex_transfer 8 ex_peer2 "b" in
  range_words (copy_run [true; false; true; false] (range_begin Where Size ex_grow (memory_after ex_grow [Added t7]) [Added t8])) = Some (2%nat, 1%nat) /\
  range_words (copy_run [false; true; true; false] (range_begin Size Where ex_grow (memory_after ex_grow [Added t7; Added t8]) [Removed t7])) = Some (2%nat, 1%nat) /\
  removals [Removed t7].
Proof. cbv zeta. split; [vm_compute; reflexivity|]. split; [vm_compute; reflexivity|]. intros c [<-|[]]. eauto. Qed.
(** A start that outgrows the array, a removal that finds nothing, and one that removes *)
Example c165_exact_ex :
  let t7 := ex_transfer 7 ex_peer "a" in let t8 := ex_transfer 8 ex_peer2 "b" in let t9 := ex_transfer 9 ex_peer "c" in
  assigned ex_grow 0 0 [] [Added t7] [(1, 1)]%nat 1 1 [t7] /\
  assigned ex_grow 1 1 [t7] [Added t8; Removed t9; Removed t7] [(2, 2); (2, 1)]%nat 2 2 [t7] /\
  range_words (copy_run [false; true; true; true; false] (range_begin Size Where ex_grow (memory_after ex_grow [Added t7]) [Added t8; Removed t9; Removed t7])) = Some (1, 1)%nat.
Proof.
  cbv zeta. split; [apply as_full; [cbn; lia|apply as_none]|]. split; [|vm_compute; reflexivity].
  apply as_full; [cbn; lia|]. apply as_absent.
  - intros u [<-|[<-|[]]] K; destruct K as (_ & K & _); discriminate.
  - apply (as_removed ex_grow 2 2 [_] _ _ (ex_transfer 7 ex_peer "a")); [now left|repeat split|apply as_none].
Qed.
