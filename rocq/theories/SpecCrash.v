(** * Specification vocabulary for a program that is killed while it receives a file *)

From Verif Require Import GoBase Timestamp Fileio SpecFileio SpecHandles Partial Crash.
Local Open Scope string_scope.
Local Open Scope N_scope.

(** The content of a file after writing these chunks one after the other *)
Definition written_all (c : list byte) (l : list chunk) : list byte :=
  fold_left (fun c k => written c (N.to_nat (fst k)) (snd k)) l c.

(** The chunks [l'] are the chunks [l] cut off somewhere: between two of them or in one of them *)
Inductive cut_off : list chunk -> list chunk -> Prop :=
| cut_here : forall l, cut_off l []
| cut_in : forall pos buf l k, cut_off ((pos, buf) :: l) [(pos, firstn k buf)]
| cut_later : forall x l l', cut_off l l' -> cut_off (x :: l) (x :: l').
(** Some of the chunks [l], in their order, each cut off somewhere or whole, the rest left out *)
Inductive parts_of : list chunk -> list chunk -> Prop :=
| part_end : forall l, parts_of l []
| part_of : forall pos buf l k l', parts_of l l' -> parts_of ((pos, buf) :: l) ((pos, firstn k buf) :: l').

(** The system never fails and always writes something *)
Definition never_fails (answers : list answer) : Prop := forall a, In a answers -> exists k, (0 < k)%nat /\ a = Did k.

(** A process that writes [l] to an open file and is killed at some moment leaves the file system [fs'] *)
Definition leaves (now : gotime) (cwd : path) (answers : list answer) (fs : fsys) (f : ofile) (l : list chunk) (fs' : fsys) : Prop :=
  exists p, proc_run now cwd answers (fs, Between f l) = (fs', p).

(** A file that FileWrite can write to, with its content *)
Definition receives (fs : fsys) (f : ofile) (c : list byte) : Prop := of_write f = true /\ content_of fs (of_path f) = Some c.
Definition in_bounds (l : list chunk) : Prop := forall k, In k l -> fst k < 2 ^ 63.
