(** * Model of a machine that loses power while it receives a file

    Crash.v has a process that is killed while the machine goes on.  Here the machine stops: a write(2) only changes memory, and the
    system writes bytes of the file back to the disk when it likes.  The code never calls Sync, and Close does not either.
    Simplifications: bytes are written back one by one, with the length of the file; that the file exists is already on the disk. *)

From Verif Require Import GoBase Timestamp Fileio Partial Crash.
Local Open Scope string_scope.
Local Open Scope N_scope.

(** What happens: a system call of the process (Crash.v), or the byte at an offset of the file is written back
    (the system below fileio/fileio.go:30-46, 118-137) *)
Inductive event := ECall (a : answer) | EBack (i : nat).

(** One of them, for the file [q]: the process with the files as programs see them, and the file as it is on the disk
    (fileio/fileio.go:30-46, 118-137, and the system below) *)
Definition power_step (now : gotime) (cwd : path) (q : path) (s : fsys * proc * list byte) (e : event) : fsys * proc * list byte :=
  let (m, disk) := s in
  match e with
  | ECall a => (proc_step now cwd a m, disk)
  | EBack i =>
      (m, match content_of (fst m) q with
          | Some c => match nth_error c i with Some b => write_content disk i [b] | None => disk end
          | None => disk
          end)
  end.
(** One after the other, until the power fails (fileio/fileio.go:30-46, 118-137) *)
Definition power_run (now : gotime) (cwd : path) (q : path) (evs : list event) (s : fsys * proc * list byte) : fsys * proc * list byte :=
  fold_left (power_step now cwd q) evs s.
