(** * Specification vocabulary for going over the table of transfers while its slice is assigned *)

From Verif Require Import GoBase Transfer SpecTransfer Tranlist.
Local Open Scope string_scope.
Local Open Scope N_scope.

(** [assigned grow a cap T cs l a' cap' T']: the table [T] is in array number [a], which has room for [cap]; the changes [cs] assign
    the arrays and lengths [l], one after the other, and leave the table [T'] in array number [a'] *)
Inductive assigned (grow : nat -> nat) : nat -> nat -> list transfer -> list change -> list (nat * nat) -> nat -> nat -> list transfer -> Prop :=
| as_none : forall a cap T, assigned grow a cap T [] [] a cap T
| as_room : forall a cap T t cs l a' cap' T', (List.length T < cap)%nat -> assigned grow a cap (T ++ [t]) cs l a' cap' T' ->
    assigned grow a cap T (Added t :: cs) ((a, S (List.length T)) :: l) a' cap' T'
| as_full : forall a cap T t cs l a' cap' T', (cap <= List.length T)%nat -> assigned grow (S a) (grow cap) (T ++ [t]) cs l a' cap' T' ->
    assigned grow a cap T (Added t :: cs) ((S a, S (List.length T)) :: l) a' cap' T'
| as_removed : forall a cap T last t u cs l a' cap' T', In u (T ++ [last]) -> same_key t u -> assigned grow a cap T cs l a' cap' T' ->
    assigned grow a cap (T ++ [last]) (Removed t :: cs) ((a, List.length T) :: l) a' cap' T'
| as_absent : forall a cap T t cs l a' cap' T', (forall u, In u T -> ~ same_key t u) -> assigned grow a cap T cs l a' cap' T' ->
    assigned grow a cap T (Removed t :: cs) l a' cap' T'.
