(** * Model of a program that receives a file and is killed

    A process opens a file to receive into (FileOpen) and writes chunks of it (FileWrite), one system call after the other; each
    system call is a step.  A process that is killed is not heard of again, and what the steps before left in the file system stays.
    Simplifications: what FileOpen looks up and creates is one step, FileSeek is one step; nobody else changes the files;
    the machine itself goes on, so that what is written is not lost (Power.v has one that stops). *)

From Verif Require Import GoBase Timestamp Fileio Partial.
Local Open Scope string_scope.
Local Open Scope N_scope.

(** Where the process is: before FileOpen, between two FileWrite, in FileWrite behind FileSeek with these bytes left, at the end
    (fileio/fileio.go:30-46, 118-132) *)
Inductive proc :=
| Opening (sardir fname ttype : string) (l : list (N * list byte))
| Between (f : ofile) (l : list (N * list byte))
| Amid (f : ofile) (buf : list byte) (l : list (N * list byte))
| Through.

(** A file moved on to another offset (fp.Seek and fp.Write in fileio/fileio.go:77-132) *)
Definition of_at (f : ofile) (pos : Z) : ofile :=
  {| of_path := of_path f; of_name := of_name f; of_pos := pos; of_write := of_write f |}.

(** One write(2) of fp.Write (fileio/fileio.go:126), which does what [a] says; fp.Write goes on until all is written, an error, or
    nothing is written.  The caller goes on with the next chunk in any case. *)
Definition write_call (a : answer) (fs : fsys) (f : ofile) (buf : list byte) (l : list (N * list byte)) : fsys * proc :=
  if of_write f then
    match a, fs_get (of_path f) fs with
    | Did k, Some n =>
        match n_kind n with
        | KFile c =>
            let done := firstn k buf in
            let fs' := fs_set (of_path f) {| n_kind := KFile (write_content c (Z.to_nat (of_pos f)) done);
                                             n_size := n_size n; n_mtime := n_mtime n; n_ctime := n_ctime n |} fs in
            match skipn k buf, done with
            | [], _ => (fs', Between f l)
            | _, [] => (fs', Between f l)
            | rest, _ => (fs', Amid (of_at f (of_pos f + Z.of_nat (List.length done))) rest l)
            end
        | _ => (fs, Between f l)
        end
    | _, _ => (fs, Between f l)
    end
  else (fs, Between f l).

(** One step (fileio/fileio.go:30-46, 118-137); [now] and [cwd] are for FileOpen *)
Definition proc_step (now : gotime) (cwd : path) (a : answer) (s : fsys * proc) : fsys * proc :=
  let (fs, p) := s in
  match p with
  | Opening sardir fname ttype l =>
      let o := file_open now false fs cwd sardir fname ttype in
      (or_fs o, match or_fp o with Some f => Between f l | None => Through end)
  | Between f [] => (fs, Through)                                   (* FileClose *)
  | Between f ((pos, buf) :: l) =>
      match file_seek (Some f) pos with
      | None => (fs, Between f l)
      | Some f => (fs, Amid f buf l)
      end
  | Amid f buf l => write_call a fs f buf l
  | Through => (fs, Through)
  end.
(** The steps up to the moment it is killed, one for each answer (fileio/fileio.go:30-46, 118-137) *)
Fixpoint proc_run (now : gotime) (cwd : path) (answers : list answer) (s : fsys * proc) : fsys * proc :=
  match answers with
  | [] => s
  | a :: r => proc_run now cwd r (proc_step now cwd a s)
  end.
