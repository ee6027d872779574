(** * Holes: the properties

    Statements only; the proofs are in HolesMain.v. *)
From Verif Require Import GoBase Holes SpecHoles HolesFacts HolesAlias HolesAliasFacts HolesMain.
From Coq Require Import Sorting.Sorted.
Local Open Scope Z_scope.

(** C16: after any sequence of Adds a position is recorded iff a range contained it. *)
Theorem C16_covers_received : forall ops l, run ops l -> forall p, covers l p <-> received ops p.
Proof. exact c16_covers_received. Qed.
Print Assumptions C16_covers_received.

(** C16: every sequence of Adds has a result: no call fails or loops. *)
Theorem C16_run_exists : forall ops, exists l, run ops l.
Proof. exact c16_run_exists. Qed.
Print Assumptions C16_run_exists.

(** C16: one Add, from any record that Adds can produce. *)
Theorem C16_add : forall ops l s e l', run ops l -> hl_add l s e l' ->
  forall p, covers l' p <-> covers l p \/ s <= p < e.
Proof. exact c16_add. Qed.
Print Assumptions C16_add.
Example C16_ex : exists l, run [(5, 7); (0, 2); (9, 9); (1, 5)] l /\ l = [{| h_start := 0; h_end := 7 |}].
Proof. exact c16_ex. Qed.

(** C17: the record is canonical. *)
Theorem C17_canonical : forall ops l, run ops l -> canonical l.
Proof. exact c17_canonical. Qed.
Print Assumptions C17_canonical.

(** C17: and is the only canonical list for the bytes received, and the shortest list
    of ranges that covers them. *)
Theorem C17_unique_minimal : forall ops l, run ops l ->
  (forall l', canonical l' -> (forall p, covers l' p <-> received ops p) -> l' = l) /\
  (forall l', (forall p, covers l' p <-> received ops p) -> (length l <= length l')%nat).
Proof. exact c17_unique_minimal. Qed.
Print Assumptions C17_unique_minimal.
Example C17_ex : canonical [{| h_start := 0; h_end := 2 |}; {| h_start := 3; h_end := 9 |}]
  /\ ~ canonical [{| h_start := 0; h_end := 2 |}; {| h_start := 2; h_end := 9 |}].
Proof. exact c17_ex. Qed.

(** C18: two histories that received the same bytes have the same record, whatever
    the order, the duplicates, the splitting into ranges and the sort's choices. *)
Theorem C18_same_bytes_same_record : forall ops ops' l l', run ops l -> run ops' l' ->
  (forall p, received ops p <-> received ops' p) -> l = l'.
Proof. exact c18_same_bytes_same_record. Qed.
Print Assumptions C18_same_bytes_same_record.

(** C18: in particular for a permutation with duplicates. *)
Theorem C18_order_and_duplicates : forall ops ops' l l', run ops l -> run ops' l' ->
  (forall x, In x ops <-> In x ops') -> l = l'.
Proof. exact c18_order_and_duplicates. Qed.
Print Assumptions C18_order_and_duplicates.
Example C18_ex : forall p, received [(0, 4); (2, 6)] p <-> received [(5, 6); (0, 3); (3, 5); (0, 3)] p.
Proof. exact c18_ex. Qed.

(** C19: the holes reported are exactly the missing positions before the end, in
    canonical form. *)
Theorem C19_holes_exact : forall ops l, run ops l -> (forall p, received ops p -> 0 <= p) ->
  (forall p, covers (hl_getholes l) p <-> 0 <= p < end_of l /\ ~ received ops p) /\
  canonical (hl_getholes l) /\
  (l = [] \/ received ops (end_of l - 1)) /\
  (forall p, received ops p -> p < end_of l) /\
  hl_lenholes l = length (hl_getholes l).
Proof. exact c19_holes_exact. Qed.
Print Assumptions C19_holes_exact.
Example C19_ex : hl_getholes [{| h_start := 2; h_end := 4 |}; {| h_start := 7; h_end := 9 |}] =
  [{| h_start := 0; h_end := 2 |}; {| h_start := 4; h_end := 7 |}].
Proof. exact c19_ex. Qed.

(** C19: a range that starts below zero makes the first reported hole end before it
    starts (defect; offsets of 2^63 and above become such ranges). *)
Theorem C19_negative_start : forall ops l p, run ops l -> received ops p -> p < 0 ->
  exists h r, hl_getholes l = h :: r /\ h_start h = 0 /\ h_end h < 0.
Proof. exact c19_negative_start. Qed.
Print Assumptions C19_negative_start.
Example C19_negative_ex : hl_getholes (hl_add_f [] (-5) (-2)) = [{| h_start := 0; h_end := -5 |}].
Proof. exact c19_negative_ex. Qed.

(** C20: complete exactly when the record is the one range, and then no holes. *)
Theorem C20_complete : forall ops l n, run ops l -> 0 < n ->
  ((forall p, received ops p <-> 0 <= p < n) <-> l = [{| h_start := 0; h_end := n |}]) /\
  (l = [{| h_start := 0; h_end := n |}] -> hl_getholes l = [] /\ hl_lenholes l = 0%nat).
Proof. exact c20_complete. Qed.
Print Assumptions C20_complete.

(** C20: no holes means that everything up to the end has been received. *)
Theorem C20_no_holes : forall ops l, run ops l -> (forall p, received ops p -> 0 <= p) ->
  (hl_getholes l = [] <-> forall p, 0 <= p < end_of l -> received ops p).
Proof. exact c20_no_holes. Qed.
Print Assumptions C20_no_holes.
Example C20_ex : exists l, run [(3, 8); (0, 3)] l /\ l = [{| h_start := 0; h_end := 8 |}].
Proof. exact c20_ex. Qed.

(** C21: consolidation terminates on every list: a recursion depth above the length
    always suffices, more makes no difference, and the list never grows. *)
Theorem C21_terminates : forall l, exists r, hl_optimise l = Some r /\ (length r <= length l)%nat /\
  forall fuel, (length l < fuel)%nat -> hl_opt fuel l = Some r.
Proof. exact c21_terminates. Qed.
Print Assumptions C21_terminates.
Example C21_ex : hl_optimise [{| h_start := 4; h_end := 2 |}; {| h_start := -3; h_end := 9 |}; {| h_start := 0; h_end := 1 |}]
  = Some [{| h_start := 4; h_end := 9 |}].
Proof. exact c21_ex. Qed.

(** C22: with backing arrays Add does to the record what the list model says, and
    leaves arrays of other records alone. *)
Theorem C22_refines : forall srt grow H s a b, (forall l, sort_result l (srt l)) -> valid_slice H s ->
  exists H' s', ia_add srt grow H s a b = Some (H', s') /\ valid_slice H' s' /\
    hl_add (view H s) a b (view H' s') /\
    (forall t, (sl_arr t < length H)%nat -> sl_arr t <> sl_arr s -> view H' t = view H t).
Proof. exact c22_refines. Qed.
Print Assumptions C22_refines.

(** C22: without spare capacity every earlier copy is unchanged. *)
Theorem C22_full_array : forall srt grow H s a b H' s', (forall l, sort_result l (srt l)) -> valid_slice H s ->
  ia_add srt grow H s a b = Some (H', s') -> capacity H s = sl_len s ->
  forall t, (sl_arr t < length H)%nat -> view H' t = view H t.
Proof. exact c22_full_array. Qed.
Print Assumptions C22_full_array.

(** C22: with spare capacity, a range added before the others and apart from them
    shifts what the earlier copy of the record shows: its first entry becomes the new
    range and its last entry is lost. *)
Theorem C22_earlier_copy_changes : forall srt grow H s a b H' s' f r,
  (forall l, sort_result l (srt l)) -> valid_slice H s -> (sl_len s < capacity H s)%nat ->
  canonical (view H s) -> view H s = f :: r -> a < b -> b < h_start f ->
  ia_add srt grow H s a b = Some (H', s') ->
  view H' s' = {| h_start := a; h_end := b |} :: f :: r /\
  view H' s = {| h_start := a; h_end := b |} :: removelast (f :: r) /\
  view H' s <> view H s.
Proof. exact c22_earlier_copy_changes. Qed.
Print Assumptions C22_earlier_copy_changes.

(** C22: more generally, when nothing merges the earlier copy shows the first entries
    of the new record. *)
Theorem C22_earlier_copy : forall srt grow H s a b H' s', (forall l, sort_result l (srt l)) -> valid_slice H s ->
  ia_add srt grow H s a b = Some (H', s') -> (sl_len s < capacity H s)%nat -> sl_len s' = S (sl_len s) ->
  view H' s = firstn (sl_len s) (view H' s').
Proof. exact c22_earlier_copy. Qed.
Print Assumptions C22_earlier_copy.
Example C22_ex :
  let H := [[{| h_start := 5; h_end := 7 |}; {| h_start := 9; h_end := 12 |}; zero_hole; zero_hole]] in
  let s := {| sl_arr := 0; sl_len := 2 |} in
  valid_slice H s /\ (sl_len s < capacity H s)%nat /\
  exists H' s', ia_add sort_holes (fun n => n + n)%nat H s 0 2 = Some (H', s') /\
    view H' s = [{| h_start := 0; h_end := 2 |}; {| h_start := 5; h_end := 7 |}].
Proof. exact c22_ex. Qed.
