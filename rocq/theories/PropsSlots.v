(** * Slots: the properties

    Statements only; the proofs are in SlotsMain.v. *)
From Verif Require Import GoBase Trans FileioFacts Sarnet Transfer SpecTransfer TransferMain Tranlist SpecTranlist TranlistMain Slots SpecSlots SlotsMain.
Local Open Scope string_scope.
Local Open Scope N_scope.

(** C158: the table in its arrays is the table of the other properties: what is started comes to its end, and a removal takes the last one. *)
Theorem C158_table : forall grow history T, grows grow -> (in_table (memory_after grow history) = T <-> changed [] history T).
Proof. exact c158_table. Qed.
Print Assumptions C158_table.

(** C158: what the pointer that a search returns points to after others have started and removed transfers. *)
Theorem C158_pointer : forall grow before during T cap i t v, grows grow -> changed [] before T -> capacity grow 0 [] before cap -> nth_error T i = Some t ->
  (points_to (memory_after grow (before ++ during)) (pointer_to (memory_after grow before) i) = Some v <-> comes_to cap i T t during v).
Proof. exact c158_pointer. Qed.
Print Assumptions C158_pointer.

(** C158: as long as the table is never so short that the place is free, the pointer points to the transfer that was found. *)
Theorem C158_kept : forall grow before during T i t, grows grow -> changed [] before T -> nth_error T i = Some t ->
  (forall k T', changed T (firstn k during) T' -> (i < List.length T')%nat) ->
  points_to (memory_after grow (before ++ during)) (pointer_to (memory_after grow before) i) = Some t.
Proof. exact c158_kept. Qed.
Print Assumptions C158_kept.

(** C158: once the table has outgrown its array the pointer points to the same for ever, whatever is started and removed, also when this
    transfer is no longer in the table. *)
Theorem C158_moved : forall grow before during later T T1 cap i t, grows grow -> changed [] before T -> capacity grow 0 [] before cap -> nth_error T i = Some t ->
  changed T during T1 -> (cap < List.length T1)%nat ->
  let p := pointer_to (memory_after grow before) i in
  points_to (memory_after grow (before ++ during ++ later)) p = points_to (memory_after grow (before ++ during)) p.
Proof. exact c158_moved. Qed.
Print Assumptions C158_moved.

(** C158: rmtran, when it comes to the removal, looks for whatever its pointer points to then: if it is in the table, the last transfer of
    the table is removed and nothing is said; otherwise nothing is removed and there is an error. *)
Theorem C158_removes : forall grow history T p v, grows grow -> changed [] history T -> points_to (memory_after grow history) p = Some v ->
  let '(m, e) := remove_through (memory_after grow history) p in
  (e = false /\ (exists u, In u T /\ same_key v u) /\ in_table m = removelast T) \/ (e = true /\ (forall u, In u T -> ~ same_key v u) /\ in_table m = T).
Proof. exact c158_removes. Qed.
Print Assumptions C158_removes.

(** C158: rmtran finds the last transfer; before it is removed another command removes it, and a new transfer is started.  Then rmtran
    removes the new transfer, which has another session and may have another peer, and says nothing (defect). *)
Theorem C158_wrong : forall grow before T t x u, grows grow -> changed [] before (T ++ [t]) -> (exists w, In w (T ++ [t]) /\ same_key x w) ->
  let m := memory_after grow (before ++ [Removed x; Added u]) in let p := pointer_to (memory_after grow before) (List.length T) in
  in_table m = (T ++ [u])%list /\ points_to m p = Some u /\ exists m', remove_through m p = (m', false) /\ in_table m' = T.
Proof. exact c158_wrong. Qed.
Print Assumptions C158_wrong.

(** C159: a loop by range sees as many transfers as there are at its beginning, and in each place what a pointer to it would show: the
    transfer of the beginning, or one that took its place.  It never goes beyond the end. *)
Theorem C159_range : forall grow before sched T cap, grows grow -> changed [] before T -> capacity grow 0 [] before cap ->
  exists l, range_over grow (memory_after grow before) sched = map Some l /\ List.length l = List.length T /\
    forall k t v, nth_error T k = Some t -> (nth_error l k = Some v <-> comes_to cap k T t (concat (firstn (S k) sched)) v).
Proof. exact c159_range. Qed.
Print Assumptions C159_range.

(** C159: while transfers are only started, or only removed, a loop by range sees exactly the transfers of its beginning. *)
Theorem C159_steady : forall grow before sched T, grows grow -> changed [] before T -> starts (concat sched) \/ removals (concat sched) ->
  range_over grow (memory_after grow before) sched = map Some T.
Proof. exact c159_steady. Qed.
Print Assumptions C159_steady.

(** C159: the check before a transfer is started decides by the transfers that the loop sees, and never ends the program. *)
Theorem C159_check : forall grow before sched blocked peer fname, grows grow ->
  exists l v, range_over grow (memory_after grow before) sched = map Some l /\
    check_over grow (memory_after grow before) sched blocked peer fname = Ret v /\ judged blocked peer fname l v.
Proof. exact c159_check. Qed.
Print Assumptions C159_check.

(** C159: so a transfer that is started meanwhile is not noticed: if there is no objection in the table at the beginning, the same file
    may be started to the same peer twice, however the two starts are interleaved (defect); and one that is removed meanwhile still is
    an objection. *)
Theorem C159_unnoticed : forall grow before sched blocked peer fname T v, grows grow -> changed [] before T -> starts (concat sched) \/ removals (concat sched) ->
  (check_over grow (memory_after grow before) sched blocked peer fname = Ret v <-> judged blocked peer fname T v).
Proof. exact c159_unnoticed. Qed.
Print Assumptions C159_unnoticed.

(** Three transfers in an array of four; rmtran has found the last one, session 9.  Then it is removed by another command and session 10 is
    started; or the table first outgrows the array. *)
Example C158_ex :
  let t7 := ex_transfer 7 ex_peer "a" in let t8 := ex_transfer 8 ex_peer2 "b" in let t9 := ex_transfer 9 ex_peer "c" in
  let t10 := ex_transfer 10 ex_peer2 "d" in let t11 := ex_transfer 11 ex_peer2 "e" in
  let before := [Added t7; Added t8; Added t9] in
  let p := pointer_to (memory_after ex_grow before) 2 in
  let ends during := let m := memory_after ex_grow (before ++ during) in
    (map tr_session (in_table m), option_map tr_session (points_to m p), map tr_session (in_table (fst (remove_through m p))), snd (remove_through m p)) in
  changed [] before [t7; t8; t9] /\ capacity ex_grow 0 [] before 4 /\
  ends [] = ([7; 8; 9], Some 9, [7; 8], false) /\
  ends [Added t10] = ([7; 8; 9; 10], Some 9, [7; 8; 9], false) /\
  ends [Removed t9] = ([7; 8], Some 9, [7; 8], true) /\
  ends [Removed t9; Added t10] = ([7; 8; 10], Some 10, [7; 8], false) /\
  ends [Added t10; Added t11; Removed t11; Removed t10; Removed t9; Added t10] = ([7; 8; 10], Some 9, [7; 8; 10], true).
Proof. exact c158_ex. Qed.

(** The same file is started to the same peer by two commands at once; and a transfer is refused because of one that is gone *)
Example C159_ex :
  let t7 := ex_transfer 7 ex_peer "a" in let t8 := ex_transfer 8 ex_peer "new" in
  let m := memory_after ex_grow [Added t7; Added t8] in
  starts (concat [[Added (ex_transfer 9 ex_peer "new2")]]) /\ removals (concat [[]; [Removed t8]]) /\
  check_over ex_grow m [[Added (ex_transfer 9 ex_peer "new2")]] false ex_peer "new2" = Ret Accepted /\
  check_over ex_grow m [[]; [Removed t8]] false ex_peer "new" = Ret Refused /\
  map (option_map tr_session) (range_over ex_grow m [[]; [Removed t8; Added (ex_transfer 9 ex_peer2 "z")]]) = [Some 7; Some 9].
Proof. exact c159_ex. Qed.
