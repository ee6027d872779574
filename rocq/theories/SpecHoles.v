(** * Specification vocabulary for the record of received ranges *)

From Verif Require Import GoBase Holes.
Local Open Scope Z_scope.

(** Position [p] lies in one of the ranges *)
Definition covers (l : holes) (p : Z) : Prop := exists h, In h l /\ h_start h <= p < h_end h.

(** Ranges are non-empty, in order, and at least one position apart *)
Definition canonical (l : holes) : Prop :=
  (forall h, In h l -> h_start h < h_end h) /\
  (forall i a b, nth_error l i = Some a -> nth_error l (S i) = Some b -> h_end a < h_start b).

(** Position [p] was in one of the ranges given to Add *)
Definition received (ops : list (Z * Z)) (p : Z) : Prop := exists s e, In (s, e) ops /\ s <= p < e.

(** A run: the ranges are added one after the other to an empty record, and the
    record may end as [l].  A relation, since sort.Slice may order equal starts in
    any way. *)
Inductive run : list (Z * Z) -> holes -> Prop :=
| run_nil : run [] []
| run_add : forall ops l s e l', run ops l -> hl_add l s e l' -> run (ops ++ [(s, e)]) l'.

(** The end of the last range, 0 if there is none *)
Definition end_of (l : holes) : Z := match rev l with [] => 0 | h :: _ => h_end h end.
