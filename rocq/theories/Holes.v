(** * Model of holes/holes.go *)

From Verif Require Import GoBase.
From Coq Require Import Sorting.Sorted.
Local Open Scope Z_scope.

(** holes.go:23-26 Hole.  Start and End are Go ints; the code only compares and
    copies them, so no wrap-around can occur and Z is exact. *)
Record hole := { h_start : Z; h_end : Z }.
(** holes.go:30 Holes *)
Definition holes := list hole.

(** holes.go:35-38 remove(i): copy(fills[i:], fills[i+1:]); fills[:len-1].
    Only called with i+1 < len(fills)+1; see HolesAlias.v for the in-place effect. *)
Definition hl_remove (fills : holes) (i : nat) : holes := firstn i fills ++ skipn (S i) fills.

(** fills[i].End = e (holes/holes.go:43-65) *)
Fixpoint set_end (fills : holes) (i : nat) (e : Z) : holes :=
  match fills, i with
  | [], _ => []
  | h :: r, O => {| h_start := h_start h; h_end := e |} :: r
  | h :: r, S i' => h :: set_end r i' e
  end.

(** holes.go:43-65 optimise: [hl_opt] is the function, [hl_loop] its for loop
    (recursive call at line 61).  [fuel] bounds the nesting; [None] means out of
    fuel, which HolesFacts.v shows never happens with fuel > length. *)
Fixpoint hl_loop (rec : holes -> option holes) (steps : nat) (fills : holes) (i : nat) : option holes :=
  match steps with
  | O => None
  | S steps' =>
      if Nat.ltb i (length fills) then
        if Nat.eqb i (length fills - 1) then Some fills
        else
          match nth_error fills i, nth_error fills (S i) with
          | Some cur, Some next =>
              if h_start next <=? h_end cur then
                let fills1 :=
                  if h_end next <=? h_end cur then hl_remove fills (S i)
                  else if h_end cur <=? h_end next
                       then hl_remove (set_end fills i (h_end next)) (S i)
                       else fills in
                match rec fills1 with
                | Some fills2 => hl_loop rec steps' fills2 (S i)
                | None => None
                end
              else hl_loop rec steps' fills (S i)
          | _, _ => None
          end
      else Some fills
  end.

(** holes/holes.go:43-65 optimise *)
Fixpoint hl_opt (fuel : nat) (fills : holes) : option holes :=
  match fuel with
  | O => None
  | S fuel' =>
      if Nat.leb (length fills) 1 then Some fills
      else hl_loop (hl_opt fuel') (S (length fills)) fills 0
  end.

(** holes.go:43-65 optimise with enough fuel *)
Definition hl_optimise (fills : holes) : option holes := hl_opt (S (length fills)) fills.

(** holes.go:80-82: sort.Slice by Start.  sort.Slice is not stable, so all that
    is known of its result is that it is a permutation sorted by Start. *)
Definition by_start (a b : hole) : Prop := h_start a <= h_start b.
(** holes/holes.go:80-82: what sort.Slice by Start can give *)
Definition sort_result (l l' : holes) : Prop :=
  Permutation l l' /\ Sorted by_start l'.

(** holes.go:71-87 Add, as a relation because of the sort: [hl_add fills s e r]
    means that Add may return [r]. *)
Inductive hl_add (fills : holes) (start end_ : Z) : holes -> Prop :=
| add_empty : end_ <= start -> hl_add fills start end_ fills
| add_first : start < end_ -> fills = [] ->
    hl_add fills start end_ [{| h_start := start; h_end := end_ |}]
| add_more : forall sorted r,
    start < end_ -> fills <> [] ->
    sort_result (fills ++ [{| h_start := start; h_end := end_ |}]) sorted ->
    hl_optimise sorted = Some r ->
    hl_add fills start end_ r.

(** One particular sort (insertion sort), giving an executable Add. (for holes/holes.go:80-82) *)
Fixpoint insert_hole (h : hole) (l : holes) : holes :=
  match l with
  | [] => [h]
  | x :: r => if h_start h <=? h_start x then h :: l else x :: insert_hole h r
  end.
(** for holes/holes.go:80-82 *)
Fixpoint sort_holes (l : holes) : holes :=
  match l with [] => [] | h :: r => insert_hole h (sort_holes r) end.
(** holes.go:71-87 Add with that sort *)
Definition hl_add_f (fills : holes) (start end_ : Z) : holes :=
  if end_ <=? start then fills
  else
    let fills1 := fills ++ [{| h_start := start; h_end := end_ |}] in
    if Nat.ltb 1 (length fills1) then
      match hl_optimise (sort_holes fills1) with Some r => r | None => [] end
    else fills1.

(** holes.go:98-109: the loop of Getholes, at index f *)
Fixpoint getholes_loop (first : bool) (fills : holes) : holes :=
  match fills with
  | [] => []
  | h :: r =>
      (if first && negb (h_start h =? 0) then [{| h_start := 0; h_end := h_start h |}] else [])
      ++ match r with
         | [] => []
         | n :: _ => {| h_start := h_end h; h_end := h_start n |} :: getholes_loop false r
         end
  end.
(** holes.go:91-111 Getholes *)
Definition hl_getholes (fills : holes) : holes := getholes_loop true fills.
(** holes.go:114-116 Lenholes *)
Definition hl_lenholes (fills : holes) : nat := length (hl_getholes fills).
