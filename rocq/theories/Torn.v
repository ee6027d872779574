(** * Model of a string that is read while it is assigned: sarwin/sarwin.go, sarflags/sarflags.go

    Shared.v reads and writes a string in one step.  For the machine a string is two words, where its bytes are and how many they
    are, and an assignment or a copy is two accesses.  Here each of them is a step, for the timestamp type: the command timestamp
    assigns to it under a lock, and the start of a transfer copies it without.
    Simplifications: all of memory can be read; the other settings are left out (Shared.v has them). *)

From Verif Require Import GoBase.
Local Open Scope string_scope.
Local Open Scope N_scope.

(** The two words of a string (the member Timestamp, sarflags/sarflags.go:276) *)
Record strhdr := { sh_ptr : nat; sh_len : nat }.
(** One of the words (sarflags/sarflags.go:276) *)
Inductive word := Where | Size.
(** An access to both, beginning with one of them: the language leaves the order open
    (sarwin/sarwin.go:2332-2347, sarflags/sarflags.go:635) *)
Definition both (first : word) : list word := match first with Where => [Where; Size] | Size => [Size; Where] end.
(** One word of a string in the place of that of another (sarwin/sarwin.go:2332-2347, sarflags/sarflags.go:635) *)
Definition put (w : word) (from to : strhdr) : strhdr :=
  match w with
  | Where => {| sh_ptr := sh_ptr from; sh_len := sh_len to |}
  | Size => {| sh_ptr := sh_ptr to; sh_len := sh_len from |}
  end.
(** The bytes of a string, [mem] being the memory (any use of the string, such as sarwin/sarwin.go:958) *)
Definition bytes_of (mem : nat -> byte) (h : strhdr) : string := string_of_list_ascii (map (fun i => mem (sh_ptr h + i)%nat) (seq 0 (sh_len h))).

(** sarwin.go:2331-2347 cmdTimestamp: the type that a command line assigns, if it does *)
Definition stamp_set (args : list string) : option string :=
  match args with
  | [_; a] =>
      lookup a [("32", "posix32"); ("32_32", "posix32_32"); ("64", "posix64"); ("64_32", "posix64_32"); ("32_y2k", "epoch2000_32"); ("local", "localinterp")]
  | _ => None
  end.
(** The string of a literal, which the linker put at an address (sarwin/sarwin.go:2332-2347) *)
Definition literal (at_ : string -> nat) (v : string) : strhdr := {| sh_ptr := at_ v; sh_len := String.length v |}.
(** What the commands, which the lock lets in one after the other, have to write (sarwin/sarwin.go:2313-2347) *)
Definition to_write (first : word) (at_ : string -> nat) (cmds : list (list string)) : list (word * strhdr) :=
  flat_map (fun ws => match stamp_set ws with Some v => map (fun w => (w, literal at_ v)) (both first) | None => [] end) cmds.

(** The member, what has still to be written, which words the copy still lacks, and the copy
    (sarflags/sarflags.go:276, 631-635) *)
Record copying := { cy_set : strhdr; cy_write : list (word * strhdr); cy_read : list word; cy_copy : strhdr }.
(** The commands are about to run, and so is the copy; new(Cliflags) has an empty string
    (sarwin/sarwin.go:2313-2316, sarflags/sarflags.go:631) *)
Definition copy_begin (first_w first_r : word) (at_ : string -> nat) (h : strhdr) (cmds : list (list string)) : copying :=
  {| cy_set := h; cy_write := to_write first_w at_ cmds; cy_read := both first_r; cy_copy := {| sh_ptr := 0; sh_len := 0 |} |}.
(** One access: of the commands, or of the copy (sarwin/sarwin.go:2332-2347, sarflags/sarflags.go:635) *)
Definition copy_step (s : copying) (command : bool) : copying :=
  if command
  then match cy_write s with
       | (w, h) :: r => {| cy_set := put w h (cy_set s); cy_write := r; cy_read := cy_read s; cy_copy := cy_copy s |}
       | [] => s
       end
  else match cy_read s with
       | w :: r => {| cy_set := cy_set s; cy_write := cy_write s; cy_read := r; cy_copy := put w (cy_set s) (cy_copy s) |}
       | [] => s
       end.
(** A run (sarwin/sarwin.go:2332-2347, sarflags/sarflags.go:635) *)
Definition copy_run (sched : list bool) (s : copying) : copying := fold_left copy_step sched s.
