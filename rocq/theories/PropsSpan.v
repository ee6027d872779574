(** * Span: the properties

    Statements only; the proofs are in SpanMain.v. *)
From Verif Require Import GoBase Transfer SpecTransfer TransferMain Tranlist SpecTranlist TranlistMain Slots SpecSlots SlotsMain Torn SpecTorn TornFacts Span SpecSpan SpanMain.
From Coq Require Import Lia PeanoNat.
Local Open Scope string_scope.
Local Open Scope N_scope.

(** C165: what a loop over the table may go over while others start and remove transfers: exactly the array of one of the tables that
    were assigned with the length of another, restricted only by the order in which the two words are accessed *)
Theorem C165_exact : forall first_w first_r grow history cs l0 a cap T l a' cap' T' x n, grows grow ->
  assigned grow 0 0 [] history l0 a cap T -> assigned grow a cap T cs l a' cap' T' ->
  (exists sched, range_words (copy_run sched (range_begin first_w first_r grow (memory_after grow history) cs)) = Some (x, n)) <->
  (exists i j y k, nth_error ((a, List.length T) :: l) i = Some (x, y) /\ nth_error ((a, List.length T) :: l) j = Some (k, n) /\ together first_w first_r i j).
Proof. exact c165_exact. Qed.
Print Assumptions C165_exact.

(** C165: every history of starts and removals assigns some arrays and lengths *)
Theorem C165_history : forall grow history a cap T, grows grow -> (List.length T <= cap)%nat -> exists l a' cap' T', assigned grow a cap T history l a' cap' T'.
Proof. exact c165_history. Qed.
Print Assumptions C165_history.

(** C165: written array first and read length first, the two words never let the loop go beyond the end of its array *)
Theorem C165_order : forall grow history cs sched a n, grows grow ->
  range_words (copy_run sched (range_begin Where Size grow (memory_after grow history) cs)) = Some (a, n) ->
  (n <= a_cap (array_at (memory_after grow (history ++ cs)) a))%nat.
Proof. exact c165_order. Qed.
Print Assumptions C165_order.

(** C165: nor does it in any order, if transfers are only removed *)
Theorem C165_removals : forall first_w first_r grow history cs sched a n, grows grow -> removals cs ->
  range_words (copy_run sched (range_begin first_w first_r grow (memory_after grow history) cs)) = Some (a, n) ->
  (n <= a_cap (array_at (memory_after grow (history ++ cs)) a))%nat.
Proof. exact c165_removals. Qed.
Print Assumptions C165_removals.

(** C165: in the other orders, when the table fills its array and one transfer is started, the loop may go over one element more than
    the array has; an array has been filled when the very first transfer is started *)
Theorem C165_beyond : forall first_w first_r grow history T cap t, grows grow -> (first_w, first_r) <> (Where, Size) ->
  changed [] history T -> capacity grow 0 [] history cap -> List.length T = cap ->
  exists sched a, range_words (copy_run sched (range_begin first_w first_r grow (memory_after grow history) [Added t])) = Some (a, S cap) /\
    a_cap (array_at (memory_after grow (history ++ [Added t])) a) = cap.
Proof. exact c165_beyond. Qed.
Print Assumptions C165_beyond.

(** Two transfers fill an array of two, and a third is started while a loop begins *)
Example C165_beyond_ex :
  let t7 := ex_transfer 7 ex_peer "a" in let t8 := ex_transfer 8 ex_peer2 "b" in let t9 := ex_transfer 9 ex_peer "c" in
  let history := [Added t7; Added t8] in
  changed [] history [t7; t8] /\ capacity ex_grow 0 [] history 2 /\
  range_words (copy_run [true; false; true; false] (range_begin Size Where ex_grow (memory_after ex_grow history) [Added t9])) = Some (2%nat, 3%nat) /\
  a_cap (array_at (memory_after ex_grow (history ++ [Added t9])) 2) = 2%nat.
Proof. exact c165_beyond_ex. Qed.

(** The very first transfer *)
Example C165_beyond_first_ex : changed [] [] [] /\ capacity ex_grow 0 [] [] 0.
Proof. exact c165_beyond_first_ex. Qed.

(** With the safe order, and with removals, loops that have begun *)
Example C165_order_ex :
  let t7 := ex_transfer 7 ex_peer "a" in let t8 := ex_transfer 8 ex_peer2 "b" in
  range_words (copy_run [true; false; true; false] (range_begin Where Size ex_grow (memory_after ex_grow [Added t7]) [Added t8])) = Some (2%nat, 1%nat) /\
  range_words (copy_run [false; true; true; false] (range_begin Size Where ex_grow (memory_after ex_grow [Added t7; Added t8]) [Removed t7])) = Some (2%nat, 1%nat) /\
  removals [Removed t7].
Proof. exact c165_order_ex. Qed.

(** A start that outgrows the array, a removal that finds nothing, and one that removes *)
Example C165_exact_ex :
  let t7 := ex_transfer 7 ex_peer "a" in let t8 := ex_transfer 8 ex_peer2 "b" in let t9 := ex_transfer 9 ex_peer "c" in
  assigned ex_grow 0 0 [] [Added t7] [(1, 1)]%nat 1 1 [t7] /\
  assigned ex_grow 1 1 [t7] [Added t8; Removed t9; Removed t7] [(2, 2); (2, 1)]%nat 2 2 [t7] /\
  range_words (copy_run [false; true; true; true; false] (range_begin Size Where ex_grow (memory_after ex_grow [Added t7]) [Added t8; Removed t9; Removed t7])) = Some (1, 1)%nat.
Proof. exact c165_exact_ex. Qed.
