(** * Model of holes/holes.go with backing arrays

    The record of ranges is a Go slice, and Add works in place on its backing
    array.  Here a slice is a reference to an array of the heap with a length; all
    slices the code forms start at element 0 of their array, so there is no offset.
    The capacity is the length of the array. *)

From Verif Require Import GoBase Holes.
Local Open Scope Z_scope.

(** A backing array of Hole (holes/holes.go:23-30) *)
Definition array := list hole.
(** The backing arrays, by number (holes/holes.go:23-30) *)
Definition heap := list array.
(** A value of type Holes (holes/holes.go:30): array, and length; it starts at element 0 *)
Record sliceref := { sl_arr : nat; sl_len : nat }.

(** The elements seen through a slice (holes/holes.go:30) *)
Definition view (H : heap) (s : sliceref) : holes := firstn (sl_len s) (nth (sl_arr s) H []).
(** cap(fills) (append in holes/holes.go:71-87) *)
Definition capacity (H : heap) (s : sliceref) : nat := length (nth (sl_arr s) H []).

(** Replace array number [a] (holes/holes.go:35-87, which store in place) *)
Fixpoint set_array (H : heap) (a : nat) (x : array) : heap :=
  match H, a with
  | [], _ => []
  | _ :: r, O => x :: r
  | y :: r, S a' => y :: set_array r a' x
  end.

(** Overwrite element [i] of an array (holes/holes.go:35-87) *)
Fixpoint set_elem (x : array) (i : nat) (h : hole) : array :=
  match x, i with
  | [], _ => []
  | _ :: r, O => h :: r
  | y :: r, S i' => y :: set_elem r i' h
  end.

(** holes.go:35-38 remove(i) on the first [len] elements of the array: elements
    i+1 .. len-1 move down by one, element len-1 keeps its old value in the array *)
Definition ia_remove (x : array) (len i : nat) : array :=
  (firstn i x ++ firstn (len - S i) (skipn (S i) x) ++ skipn (len - 1) x)%list.

(** holes.go:43-65 optimise in place: array and length of the slice *)
Fixpoint ia_loop (rec : array -> nat -> option (array * nat)) (steps : nat) (x : array) (len i : nat)
  : option (array * nat) :=
  match steps with
  | O => None
  | S steps' =>
      if Nat.ltb i len then
        if Nat.eqb i (len - 1) then Some (x, len)
        else
          match nth_error x i, nth_error x (S i) with
          | Some cur, Some next =>
              if h_start next <=? h_end cur then
                let '(x1, len1) :=
                  if h_end next <=? h_end cur then (ia_remove x len (S i), (len - 1)%nat)
                  else if h_end cur <=? h_end next
                       then (ia_remove (set_end x i (h_end next)) len (S i), (len - 1)%nat)
                       else (x, len) in
                match rec x1 len1 with
                | Some (x2, len2) => ia_loop rec steps' x2 len2 (S i)
                | None => None
                end
              else ia_loop rec steps' x len (S i)
          | _, _ => None
          end
      else Some (x, len)
  end.
(** holes/holes.go:43-65 optimise *)
Fixpoint ia_opt (fuel : nat) (x : array) (len : nat) : option (array * nat) :=
  match fuel with
  | O => None
  | S fuel' => if Nat.leb len 1 then Some (x, len) else ia_loop (ia_opt fuel') (S len) x len 0
  end.

(** holes.go:71-87 Add.  [srt] is what sort.Slice does, [grow] the capacity append
    chooses for a new array (at least the length needed).  A new array is filled
    up with zero Holes beyond the length. *)
Definition zero_hole : hole := {| h_start := 0; h_end := 0 |}.
(** holes/holes.go:71-87 Add *)
Definition ia_add (srt : holes -> holes) (grow : nat -> nat) (H : heap) (s : sliceref) (start end_ : Z)
  : option (heap * sliceref) :=
  if end_ <=? start then Some (H, s)
  else
    let fill := {| h_start := start; h_end := end_ |} in
    let n := sl_len s in
    (* fills = append(fills, fill) *)
    let '(H1, s1) :=
      if Nat.ltb n (capacity H s)
      then (set_array H (sl_arr s) (set_elem (nth (sl_arr s) H []) n fill), {| sl_arr := sl_arr s; sl_len := S n |})
      else ((H ++ [view H s ++ fill :: repeat zero_hole (grow n - S n)])%list,
            {| sl_arr := length H; sl_len := S n |}) in
    if Nat.ltb 1 (sl_len s1) then
      let x := nth (sl_arr s1) H1 [] in
      (* sort.Slice(fills, ...) permutes the elements of the slice in place *)
      let x := (srt (firstn (sl_len s1) x) ++ skipn (sl_len s1) x)%list in
      match ia_opt (S (sl_len s1)) x (sl_len s1) with
      | Some (x', len') => Some (set_array H1 (sl_arr s1) x', {| sl_arr := sl_arr s1; sl_len := len' |})
      | None => None
      end
    else Some (H1, s1).
