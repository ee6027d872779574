(** * Specification vocabulary for a string that is read while it is assigned *)

From Verif Require Import GoBase Torn.
Local Open Scope string_scope.
Local Open Scope N_scope.

(** The types that were set, one after the other: the first and those of the commands *)
Definition types_set (v0 : string) (cmds : list (list string)) : list string :=
  v0 :: flat_map (fun ws => match stamp_set ws with Some v => [v] | None => [] end) cmds.
(** Where they are: the first anywhere, those of the commands are literals *)
Definition places (p0 : nat) (at_ : string -> nat) (v0 : string) (cmds : list (list string)) : list nat :=
  p0 :: map at_ (tl (types_set v0 cmds)).
(** The memory has the text [v] at [p] *)
Definition has_text (mem : nat -> byte) (p : nat) (v : string) : Prop := bytes_of mem {| sh_ptr := p; sh_len := String.length v |} = v.
(** The copy of a run that has been made *)
Definition copied_text (mem : nat -> byte) (s : copying) : option string :=
  match cy_read s with [] => Some (bytes_of mem (cy_copy s)) | _ => None end.
(** With a type's place the number [i], and a type's length the number [j], can come together in a copy *)
Definition together (first_w first_r : word) (i j : nat) : Prop :=
  match first_w, first_r with
  | Size, Where => (i <= j)%nat
  | Size, Size => (j <= S i)%nat
  | Where, Where => (i <= S j)%nat
  | Where, Size => (j <= i)%nat
  end.
