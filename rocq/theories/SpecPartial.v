(** * Specification vocabulary for files when the system does less than it is asked to, and for two calls at once *)

From Verif Require Import GoBase Fileio SpecFileio Handles SpecHandles Partial.
Local Open Scope string_scope.
Local Open Scope N_scope.

(** An open file with this content *)
Definition opened (f : pfile) (c : list byte) : Prop := pf_open f = true /\ pf_content f = c.

(** One attempt after the other to write [buf] at [pos]: after an error, what was not written is written again, behind what was.
    The last attempt has no error. *)
Inductive persists : pfile -> N -> list byte -> pfile -> Prop :=
| pe_done : forall answers f pos buf f' n, p_filewrite answers f pos buf = (f', (n, false)) -> persists f pos buf f'
| pe_again : forall answers f pos buf f1 n f', p_filewrite answers f pos buf = (f1, (n, true)) ->
    persists f1 (pos + N.of_nat n) (skipn n buf) f' -> persists f pos buf f'.

(** One read after the other, each behind the one before, until an error: [got] is all that was read *)
Inductive reads_on : pfile -> N -> list byte -> Prop :=
| ro_end : forall a f pos blen f', p_fileread a f pos (Z.of_nat blen) = Ret (f', None) -> reads_on f pos []
| ro_more : forall a f pos blen f' b got, (0 < blen)%nat -> p_fileread a f pos (Z.of_nat blen) = Ret (f', Some b) ->
    reads_on f' (pos + N.of_nat (List.length b)) got -> reads_on f pos (b ++ got).
(** The same without a failing system call *)
Inductive reads_well : pfile -> N -> list byte -> Prop :=
| rw_end : forall k f pos blen f', p_fileread (Did k) f pos (Z.of_nat blen) = Ret (f', None) -> reads_well f pos []
| rw_more : forall k f pos blen f' b got, (0 < blen)%nat -> p_fileread (Did k) f pos (Z.of_nat blen) = Ret (f', Some b) ->
    reads_well f' (pos + N.of_nat (List.length b)) got -> reads_well f pos (b ++ got).

(** Writing the chunks of a file as they come, each once: the file at the end and the ranges that were reported as written *)
Inductive collects : pfile -> list chunk -> list (Z * Z) -> pfile -> Prop :=
| co_nil : forall f, collects f [] [] f
| co_cons : forall answers f pos buf f1 n e l rs f', p_filewrite answers f pos buf = (f1, (n, e)) -> collects f1 l rs f' ->
    collects f ((pos, buf) :: l) ((Z.of_N pos, (Z.of_N pos + Z.of_nat n)%Z) :: rs) f'.

(** ** Two calls *)
Definition place_of (k : pcall) : nat := match k with CRead pos _ => N.to_nat pos | CWrite pos _ => N.to_nat pos end.
Definition in_reach (k : pcall) : Prop := match k with CRead pos _ => pos < 2 ^ 63 | CWrite pos _ => pos < 2 ^ 63 end.
(** A place that no file has *)
Definition out_of_reach (k : pcall) : Prop := match k with CRead pos _ => 2 ^ 63 <= pos < 2 ^ 64 | CWrite pos _ => 2 ^ 63 <= pos < 2 ^ 64 end.
(** Nothing is read, or written, and there is an error *)
Definition refusal (k : pcall) : pres := match k with CRead _ _ => RGot None | CWrite _ _ => RPut 0 true end.
(** A call that works at the offset [off] on the content [c]: the content then, the offset behind, and what it returns *)
Inductive works (writable : bool) : pcall -> list byte -> nat -> list byte -> nat -> pres -> Prop :=
| wk_write : forall pos buf c off, writable = true ->
    works writable (CWrite pos buf) c off (written c off buf) (off + List.length buf) (RPut (List.length buf) false)
| wk_refused : forall pos buf c off, writable = false -> works writable (CWrite pos buf) c off c off (RPut 0 true)
| wk_read : forall pos blen c off, (off < List.length c)%nat \/ blen = 0%nat ->
    works writable (CRead pos blen) c off c (off + List.length (firstn blen (skipn off c))) (RGot (Some (firstn blen (skipn off c))))
| wk_end : forall pos blen c off, (List.length c <= off)%nat -> blen <> 0%nat -> works writable (CRead pos blen) c off c off (RGot None).
(** First [x], then [y], each at its own place *)
Definition in_turn (writable : bool) (x y : pcall) (c c' : list byte) (rx ry : pres) : Prop :=
  exists c1 o1 o2, works writable x c (place_of x) c1 o1 rx /\ works writable y c1 (place_of y) c' o2 ry.
(** First [x], then [y], the first at the place [off] and the second right behind it *)
Definition behind (writable : bool) (off : nat) (x y : pcall) (c c' : list byte) (rx ry : pres) : Prop :=
  exists c1 o1 o2, works writable x c off c1 o1 rx /\ works writable y c1 o1 c' o2 ry.
