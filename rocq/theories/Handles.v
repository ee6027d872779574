(** * Model of the open files of fileio/fileio.go: handles, closing and removing

    Fileio.v identifies an open file with its path.  Here an open file is a thing of its
    own, as in the operating system: it goes on to exist when its name is removed, several
    handles may share it, and a handle may be closed.  Simplifications: no file has two names,
    files are renamed by nobody, every open finds a free descriptor, and what is said about
    reading and writing is about regular files (on others it is an error). *)

From Verif Require Import GoBase Flags Timestamp Fileio.
Local Open Scope string_scope.
Local Open Scope N_scope.

(** Where the file behind an *os.File is: at a path, or removed while open (fileio/fileio.go:135-154) *)
Inductive place := Named (p : path) | Gone (k : nat).
(** Auxiliary, no code of its own: equality of places (for fileio/fileio.go:135-154) *)
Definition place_eqb (a b : place) : bool :=
  match a, b with
  | Named p, Named q => path_eqb p q
  | Gone i, Gone j => Nat.eqb i j
  | _, _ => false
  end.
(** *os.File with its descriptor: fp.Name(), the offset, the mode, and whether it is still open
    (fileio/fileio.go:30-154) *)
Record hfile := { h_at : place; h_name : string; h_pos : Z; h_write : bool; h_open : bool }.
(** The files, the working directory, the files that are removed but were open then, and all
    files ever opened (fileio/fileio.go:30-154) *)
Record world := { w_fs : fsys; w_cwd : path; w_gone : list node; w_files : list hfile }.

(** What is behind a place (fp.Read and fp.Write in fileio/fileio.go:97-132) *)
Definition node_at (w : world) (a : place) : option node :=
  match a with
  | Named p => fs_get p (w_fs w)
  | Gone k => nth_error (w_gone w) k
  end.
(** Auxiliary, no code of its own: replace an element (for fileio/fileio.go:97-137) *)
Fixpoint set_at {A : Type} (l : list A) (i : nat) (a : A) : list A :=
  match l, i with
  | [], _ => []
  | _ :: r, O => a :: r
  | x :: r, Datatypes.S i => x :: set_at r i a
  end.
(** Something else is behind a place (fp.Write in fileio/fileio.go:118-132) *)
Definition put_at (w : world) (a : place) (n : node) : world :=
  match a with
  | Named p => {| w_fs := fs_set p n (w_fs w); w_cwd := w_cwd w; w_gone := w_gone w; w_files := w_files w |}
  | Gone k => {| w_fs := w_fs w; w_cwd := w_cwd w; w_gone := set_at (w_gone w) k n; w_files := w_files w |}
  end.
(** The handles changed (fileio/fileio.go:77-137) *)
Definition with_files (w : world) (l : list hfile) : world :=
  {| w_fs := w_fs w; w_cwd := w_cwd w; w_gone := w_gone w; w_files := l |}.
(** The *os.File a handle stands for; None is nil (fileio/fileio.go:77-154) *)
Definition file_of (w : world) (h : option nat) : option hfile :=
  match h with Some i => nth_error (w_files w) i | None => None end.
(** An offset is set (fp.Seek, fp.Read and fp.Write in fileio/fileio.go:77-132) *)
Definition h_moved (f : hfile) (z : Z) : hfile :=
  {| h_at := h_at f; h_name := h_name f; h_pos := z; h_write := h_write f; h_open := h_open f |}.
(** A handle is closed (fileio/fileio.go:135-137) *)
Definition h_closed (f : hfile) : hfile :=
  {| h_at := h_at f; h_name := h_name f; h_pos := h_pos f; h_write := h_write f; h_open := false |}.
(** One handle changed (fileio/fileio.go:77-137) *)
Definition update (w : world) (h : option nat) (f : hfile) : world :=
  match h with Some i => with_files w (set_at (w_files w) i f) | None => w end.

(** fileio.go:30-74 FileOpen: the handle (None is nil) and whether an error is returned *)
Definition w_fileopen (now : gotime) (chdir_ok : bool) (sardir : string) (w : world) (fname ttype : string)
  : world * (option nat * bool) :=
  let o := file_open now chdir_ok (w_fs w) (w_cwd w) sardir fname ttype in
  match or_fp o with
  | Some f =>
      let h := {| h_at := Named (of_path f); h_name := of_name f; h_pos := of_pos f; h_write := of_write f; h_open := true |} in
      ({| w_fs := or_fs o; w_cwd := or_cwd o; w_gone := w_gone w; w_files := (w_files w ++ [h])%list |},
       (Some (length (w_files w)), or_err o))
  | None => ({| w_fs := or_fs o; w_cwd := or_cwd o; w_gone := w_gone w; w_files := w_files w |}, (None, or_err o))
  end.

(** fileio.go:77-95 FileSeek: the handle at its new offset, or None on error: nil, a
    position that is negative as an int64, or a closed file *)
Definition w_fileseek (w : world) (h : option nat) (pos : N) : option hfile :=
  match file_of w h with
  | None => None
  | Some f =>
      let ipos := i64_of_N pos in
      if (ipos <? 0)%Z then None
      else if h_open f then Some (h_moved f ipos)
      else None
  end.

(** fileio.go:97-115 FileRead: the bytes, or None on error.  make([]byte, blen) panics for blen < 0. *)
Definition w_fileread (w : world) (h : option nat) (pos : N) (blen : Z) : outcome (world * option (list byte)) :=
  if (blen <? 0)%Z then Panic
  else
    match w_fileseek w h pos with
    | None => Ret (w, None)
    | Some f =>
        let w1 := update w h f in
        match node_at w1 (h_at f) with
        | Some n =>
            match n_kind n with
            | KFile c =>
                if (blen =? 0)%Z then Ret (w1, Some [])
                else
                  let got := firstn (Z.to_nat blen) (skipn (Z.to_nat (h_pos f)) c) in
                  match got with
                  | [] => Ret (w1, None)                                                        (* io.EOF *)
                  | _ => Ret (update w1 h (h_moved f (h_pos f + Z.of_nat (length got))), Some got)
                  end
            | _ => Ret (w1, None)
            end
        | None => Ret (w1, None)
        end
    end.

(** fileio.go:118-132 FileWrite: the number of bytes, or None on error (with which the code
    returns 0).  Simplification: the file's modification time is not brought up to date. *)
Definition w_filewrite (w : world) (h : option nat) (pos : N) (buf : list byte) : world * option nat :=
  match w_fileseek w h pos with
  | None => (w, None)
  | Some f =>
      let w1 := update w h f in
      if h_write f then
        match node_at w1 (h_at f) with
        | Some n =>
            match n_kind n with
            | KFile c =>
                let w2 := put_at w1 (h_at f)
                            {| n_kind := KFile (write_content c (Z.to_nat (h_pos f)) buf);
                               n_size := n_size n; n_mtime := n_mtime n; n_ctime := n_ctime n |} in
                (update w2 h (h_moved f (h_pos f + Z.of_nat (length buf))), Some (length buf))
            | _ => (w1, None)
            end
        | None => (w1, None)
        end
      else (w1, None)
  end.

(** fileio.go:135-137 FileClose: whether it succeeds; closing nil or a closed file is an error *)
Definition w_fileclose (w : world) (h : option nat) : world * bool :=
  match file_of w h with
  | Some f => if h_open f then (update w h (h_closed f), true) else (w, false)
  | None => (w, false)
  end.

(** A file that is open stays, without a name (os.Remove in fileio/fileio.go:140-143) *)
Definition h_unnamed (p : path) (k : nat) (f : hfile) : hfile :=
  if place_eqb (h_at f) (Named p)
  then {| h_at := Gone k; h_name := h_name f; h_pos := h_pos f; h_write := h_write f; h_open := h_open f |}
  else f.
(** fileio.go:140-143 FileRm: whether it succeeds *)
Definition w_filerm (sardir : string) (w : world) (fname : string) : world * bool :=
  match file_rm (w_fs w) (w_cwd w) sardir fname, resolve (w_fs w) (w_cwd w) (full sardir fname) with
  | inl fs', inl p =>
      match fs_get p (w_fs w) with
      | Some n => ({| w_fs := fs'; w_cwd := w_cwd w; w_gone := (w_gone w ++ [n])%list;
                      w_files := map (h_unnamed p (length (w_gone w))) (w_files w) |}, true)
      | None => (w, false)
      end
  | _, _ => (w, false)
  end.

(** fileio.go:146-154 FileDelete: whether it succeeds.  The error of closing is not looked at. *)
Definition w_filedelete (sardir : string) (w : world) (h : option nat) : world * bool :=
  match file_of w h with
  | Some f => w_filerm sardir (fst (w_fileclose w h)) (h_name f)
  | None => (w, false)
  end.

(** A call of the package (fileio/fileio.go:30-154) *)
Inductive hop :=
| HOpen (now : gotime) (chdir_ok : bool) (fname ttype : string)
| HRead (h : option nat) (pos : N) (blen : Z)
| HWrite (h : option nat) (pos : N) (buf : list byte)
| HClose (h : option nat)
| HRm (fname : string)
| HDelete (h : option nat).
(** What it returns (fileio/fileio.go:30-154) *)
Inductive hres :=
| ROpened (h : option nat) (err : bool)
| RRead (r : option (list byte))
| RWrote (n : option nat)
| RDone (ok : bool).
(** One call (fileio/fileio.go:30-154) *)
Definition hstep (sardir : string) (w : world) (o : hop) : outcome (world * hres) :=
  match o with
  | HOpen now ok fname ttype => let '(w', (h, e)) := w_fileopen now ok sardir w fname ttype in Ret (w', ROpened h e)
  | HRead h pos blen => do ' (w', r) <- w_fileread w h pos blen; Ret (w', RRead r)
  | HWrite h pos buf => let (w', r) := w_filewrite w h pos buf in Ret (w', RWrote r)
  | HClose h => let (w', b) := w_fileclose w h in Ret (w', RDone b)
  | HRm fname => let (w', b) := w_filerm sardir w fname in Ret (w', RDone b)
  | HDelete h => let (w', b) := w_filedelete sardir w h in Ret (w', RDone b)
  end.
(** One call after the other (no code of its own: a history of calls of fileio/fileio.go:30-154) *)
Fixpoint hrun (sardir : string) (w : world) (l : list hop) : outcome (world * list hres) :=
  match l with
  | [] => Ret (w, [])
  | o :: r => do ' (w1, x) <- hstep sardir w o; do ' (w2, xs) <- hrun sardir w1 r; Ret (w2, x :: xs)
  end.
(** At the beginning nothing is open (saratoga/saratoga.go:439-604) *)
Definition no_files (fs : fsys) (cwd : path) : world := {| w_fs := fs; w_cwd := cwd; w_gone := []; w_files := [] |}.
