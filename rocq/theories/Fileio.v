(** * Model of fileio/fileio.go and fileio/checksum.go over an abstract file system *)

From Verif Require Import GoBase Flags Config Shipped Timestamp.
Local Open Scope string_scope.
Local Open Scope N_scope.

(** ** The operating system

    A file system is a finite map from absolute paths (lists of components) to
    nodes.  Simplifications: no permissions, no hard links (an open file is
    identified by its path), no I/O errors or full disk (Partial.v has them), symbolic links are only
    followed in the last component of a path, a path component of any length is
    accepted. *)
(** what fileio/fileio.go:14-208 uses of package os *)
Definition path := list string.

(** What a name can stand for, as os.FileMode in fileio/fileio.go:20-27, 173-208 tells them apart *)
Inductive kind :=
| KFile (content : list byte)
| KDir
| KPipe
| KLink (target : string)
| KOther.

(** What os.Lstat and os.Stat tell in fileio/fileio.go:20-27, 173-208 *)
Record node := { n_kind : kind; n_size : N (* of a non-file *); n_mtime : gotime; n_ctime : gotime }.

(** The file system that fileio/fileio.go works on (lines fileio/fileio.go:14-208) *)
Definition fsys := list (path * node).

(** Auxiliary, no code of its own: equality of paths (for fileio/fileio.go:14-208) *)
Definition path_eqb (p q : path) : bool :=
  if list_eq_dec String.string_dec p q then true else false.

(** The file system below fileio/fileio.go: what is at a path (fileio/fileio.go:14-208) *)
Fixpoint fs_get (p : path) (fs : fsys) : option node :=
  match fs with
  | [] => None
  | (q, n) :: r => if path_eqb p q then Some n else fs_get p r
  end.
(** ... without a path (fileio/fileio.go:140-154) *)
Definition fs_del (p : path) (fs : fsys) : fsys := filter (fun e => negb (path_eqb p (fst e))) fs.
(** ... with something else at a path (fileio/fileio.go:30-74, 118-132) *)
Definition fs_set (p : path) (n : node) (fs : fsys) : fsys := (p, n) :: fs_del p fs.

(** mode.IsDir() (fileio/fileio.go:20-27, 173-208) *)
Definition is_dir (n : node) : bool := match n_kind n with KDir => true | _ => false end.
(** mode.IsRegular() (fileio/fileio.go:20-27, 173-208) *)
Definition is_regular (n : node) : bool := match n_kind n with KFile _ => true | _ => false end.
(** mode & os.ModeNamedPipe (fileio/fileio.go:173-208) *)
Definition is_pipe (n : node) : bool := match n_kind n with KPipe => true | _ => false end.
(** info.Size() (fileio/fileio.go:173-208) *)
Definition node_size (n : node) : N :=
  match n_kind n with KFile c => N.of_nat (length c) | _ => n_size n end.

(** The errors of the system calls behind fileio/fileio.go:20-208 *)
Inductive oserr := ENOENT | ENOTDIR | EINVAL | EISDIR | ELOOP | ENOTEMPTY | EBADF | ESPIPE.

(** Path resolution: every component but the last must be a directory.
    (the system call behind os.Stat, os.Open, ... in fileio/fileio.go:20-208) *)
Fixpoint walk (fs : fsys) (cur : path) (comps : list string) : path + oserr :=
  match comps with
  | [] => inl cur
  | c :: r =>
      match fs_get cur fs with
      | None => inr ENOENT
      | Some n =>
          if is_dir n then
            if String.eqb c "" || String.eqb c "." then walk fs cur r
            else if String.eqb c ".." then walk fs (removelast cur) r
            else walk fs (cur ++ [c])%list r
          else inr ENOTDIR
      end
  end.

(** A name with a zero byte is refused by package os (fileio/fileio.go:20-208) *)
Definition has_nul (s : string) : bool := existsb (Ascii.eqb zero_byte) (bytes_of s).
(** A name that starts at the root (fileio/fileio.go:20-208) *)
Definition is_abs (s : string) : bool :=
  match s with String a _ => Ascii.eqb a "/" | _ => false end.

(** The path that a name given to package os in fileio/fileio.go:20-208 leads to, its last component not followed *)
Definition resolve (fs : fsys) (cwd : path) (s : string) : path + oserr :=
  if String.eqb s "" then inr ENOENT
  else if has_nul s then inr EINVAL
  else walk fs (if is_abs s then [] else cwd) (split_on "/" s).

(** Following symbolic links in the last component (Linux gives up after 40)
    (os.Stat, os.Open, os.Create in fileio/fileio.go:20-208) *)
Fixpoint follow (fuel : nat) (fs : fsys) (p : path) : path + oserr :=
  match fs_get p fs with
  | Some n =>
      match n_kind n with
      | KLink t =>
          match fuel with
          | O => inr ELOOP
          | S f => match resolve fs (removelast p) t with
                   | inl q => follow f fs q
                   | inr e => inr e
                   end
          end
      | _ => inl p
      end
  | None => inl p
  end.
(** The path that os.Stat, os.Open and os.Create (fileio/fileio.go:20-74) get to *)
Definition resolve_follow (fs : fsys) (cwd : path) (s : string) : path + oserr :=
  match resolve fs cwd s with inl p => follow 40 fs p | inr e => inr e end.

(** os.Lstat (called in fileio/fileio.go:180, 191 and metadata/metadata.go:53) *)
Definition os_lstat (fs : fsys) (cwd : path) (s : string) : node + oserr :=
  match resolve fs cwd s with
  | inl p => match fs_get p fs with Some n => inl n | None => inr ENOENT end
  | inr e => inr e
  end.
(** os.Stat (called in fileio/fileio.go:20-27) *)
Definition os_stat (fs : fsys) (cwd : path) (s : string) : node + oserr :=
  match resolve_follow fs cwd s with
  | inl p => match fs_get p fs with Some n => inl n | None => inr ENOENT end
  | inr e => inr e
  end.

(** *os.File (fileio/fileio.go:30-137) *)
Record ofile := { of_path : path; of_name : string; of_pos : Z; of_write : bool }.

(** os.Create: O_RDWR|O_CREATE|O_TRUNC.  [now] stamps a new node. (called in fileio/fileio.go:30-74) *)
Definition os_create (now : gotime) (fs : fsys) (cwd : path) (s : string) : (fsys * ofile) + oserr :=
  match resolve_follow fs cwd s with
  | inr e => inr e
  | inl p =>
      let fp := {| of_path := p; of_name := s; of_pos := 0; of_write := true |} in
      match fs_get p fs with
      | None => inl (fs_set p {| n_kind := KFile []; n_size := 0; n_mtime := now; n_ctime := now |} fs, fp)
      | Some n =>
          match n_kind n with
          | KFile _ => inl (fs_set p {| n_kind := KFile []; n_size := 0; n_mtime := now; n_ctime := now |} fs, fp)
          | KDir => inr EISDIR
          | KLink _ => inr ELOOP
          | KPipe | KOther => inl (fs, fp)
          end
      end
  end.
(** os.Open: O_RDONLY (called in fileio/fileio.go:30-74) *)
Definition os_open (fs : fsys) (cwd : path) (s : string) : ofile + oserr :=
  match resolve_follow fs cwd s with
  | inr e => inr e
  | inl p => match fs_get p fs with
             | None => inr ENOENT
             | Some _ => inl {| of_path := p; of_name := s; of_pos := 0; of_write := false |}
             end
  end.
(** os.Mkdir (called in fileio/fileio.go:30-74) *)
Definition os_mkdir (now : gotime) (fs : fsys) (cwd : path) (s : string) : fsys + oserr :=
  match resolve fs cwd s with
  | inr e => inr e
  | inl p => match fs_get p fs with
             | Some _ => inr EISDIR      (* EEXIST *)
             | None => inl (fs_set p {| n_kind := KDir; n_size := 4096; n_mtime := now; n_ctime := now |} fs)
             end
  end.
(** A directory that is not empty cannot be removed (os.Remove, fileio/fileio.go:140-154) *)
Definition has_child (p : path) (fs : fsys) : bool :=
  existsb (fun e => negb (path_eqb (fst e) []) && path_eqb (removelast (fst e)) p && negb (path_eqb (fst e) p)) fs.
(** os.Remove: unlink, or rmdir of an empty directory (called in fileio/fileio.go:140-154) *)
Definition os_remove (fs : fsys) (cwd : path) (s : string) : fsys + oserr :=
  match resolve fs cwd s with
  | inr e => inr e
  | inl p =>
      match fs_get p fs with
      | None => inr ENOENT
      | Some n => if is_dir n && has_child p fs then inr ENOTEMPTY else inl (fs_del p fs)
      end
  end.

(** Contents of a file after writing [buf] at [pos]: a gap is filled with zeros;
    writing nothing changes nothing. (fp.Write, fileio/fileio.go:118-132) *)
Definition write_content (c : list byte) (pos : nat) (buf : list byte) : list byte :=
  match buf with
  | [] => c
  | _ => if Nat.leb pos (length c) then overwrite c pos buf
         else (c ++ make_bytes (pos - length c) ++ buf)%list
  end.

(** ** fileio.go *)

(** fileio.go:14-16 Sardir() is the [sardir] argument below; [cwd] is the
    process's working directory. *)
Definition full (sardir fname : string) : string := sardir ++ "/" ++ fname.

(** fileio.go:20-27 FileExists *)
Definition file_exists (fs : fsys) (cwd : path) (sardir fname : string) : bool :=
  match os_stat fs cwd (full sardir fname) with
  | inl n => is_dir n || is_regular n
  | inr _ => false
  end.

(** Result of FileOpen: file system, working directory, the *os.File (None is nil), error (fileio/fileio.go:30-74) *)
Record open_result := { or_fs : fsys; or_cwd : path; or_fp : option ofile; or_err : bool }.

(** fileio.go:30-74 FileOpen.  Error texts are reduced to a flag.  [chdir_ok]:
    whether os.Chdir into the directory just made (with mode 0) succeeds. *)
Definition file_open (now : gotime) (chdir_ok : bool) (fs : fsys) (cwd : path) (sardir fname ttype : string)
  : open_result :=
  let fullname := full sardir fname in
  if one_of ttype ["get"; "take"] then
    if file_exists fs cwd sardir fullname
    then {| or_fs := fs; or_cwd := cwd; or_fp := None; or_err := true |}
    else match os_create now fs cwd fullname with
         | inl (fs', fp) => {| or_fs := fs'; or_cwd := cwd; or_fp := Some fp; or_err := false |}
         | inr _ => {| or_fs := fs; or_cwd := cwd; or_fp := None; or_err := true |}
         end
  else if String.eqb ttype "getdir" then
    if file_exists fs cwd sardir fullname
    then {| or_fs := fs; or_cwd := cwd; or_fp := None; or_err := true |}
    else match os_mkdir now fs cwd fullname with
         | inl fs' =>
             if chdir_ok
             then {| or_fs := fs';
                     or_cwd := match resolve fs' cwd fullname with inl p => p | inr _ => cwd end;
                     or_fp := None; or_err := false |}
             else {| or_fs := fs'; or_cwd := cwd; or_fp := None; or_err := true |}
         | inr _ => {| or_fs := fs; or_cwd := cwd; or_fp := None; or_err := true |}
         end
  else if one_of ttype ["put"; "give"] then
    if negb (file_exists fs cwd sardir fullname)
    then {| or_fs := fs; or_cwd := cwd; or_fp := None; or_err := true |}
    else match os_open fs cwd fullname with
         | inl fp => {| or_fs := fs; or_cwd := cwd; or_fp := Some fp; or_err := false |}
         | inr _ => {| or_fs := fs; or_cwd := cwd; or_fp := None; or_err := true |}
         end
  else if String.eqb ttype "delete" then
    {| or_fs := fs; or_cwd := cwd; or_fp := None; or_err := false |}
  else {| or_fs := fs; or_cwd := cwd; or_fp := None; or_err := true |}.

(** fileio.go:77-95 FileSeek: the new offset of the file, or None on error.
    [fp = None] is nil. *)
Definition file_seek (fp : option ofile) (pos : N) : option ofile :=
  match fp with
  | None => None
  | Some f =>
      let ipos := i64_of_N pos in
      if (ipos <? 0)%Z then None
      else Some {| of_path := of_path f; of_name := of_name f; of_pos := ipos; of_write := of_write f |}
  end.

(** Auxiliary, no code of its own: the content of a regular file (fileio/fileio.go:97-132) *)
Definition content_of (fs : fsys) (p : path) : option (list byte) :=
  match fs_get p fs with
  | Some n => match n_kind n with KFile c => Some c | _ => None end
  | None => None
  end.

(** fileio.go:97-115 FileRead on a regular file: the bytes read, or None on error
    (nil file, bad position, end of file).  make([]byte, blen) panics for blen < 0. *)
Definition file_read (fs : fsys) (fp : option ofile) (pos : N) (blen : Z) : outcome (option (list byte)) :=
  if (blen <? 0)%Z then Panic
  else
    match file_seek fp pos with
    | None => Ret None
    | Some f =>
        match content_of fs (of_path f) with
        | None => Ret None
        | Some c =>
            let rest := skipn (Z.to_nat (of_pos f)) c in
            if (blen =? 0)%Z then Ret (Some [])
            else match rest with
                 | [] => Ret None                                  (* io.EOF *)
                 | _ => Ret (Some (firstn (Z.to_nat blen) rest))
                 end
        end
    end.

(** fileio.go:118-132 FileWrite on a regular file: new file system and number of
    bytes written, or None on error.  Simplification: the file's modification time is
    not brought up to date. *)
Definition file_write (fs : fsys) (fp : option ofile) (pos : N) (buf : list byte) : option (fsys * nat) :=
  match file_seek fp pos with
  | None => None
  | Some f =>
      if of_write f then
        match fs_get (of_path f) fs with
        | Some n =>
            match n_kind n with
            | KFile c =>
                Some (fs_set (of_path f)
                        {| n_kind := KFile (write_content c (Z.to_nat (of_pos f)) buf);
                           n_size := n_size n; n_mtime := n_mtime n; n_ctime := n_ctime n |} fs,
                      length buf)
            | _ => None
            end
        | None => None
        end
      else None
  end.

(** fileio.go:140-143 FileRm *)
Definition file_rm (fs : fsys) (cwd : path) (sardir fname : string) : fsys + oserr :=
  os_remove fs cwd (full sardir fname).
(** fileio.go:146-154 FileDelete: FileRm of the file's own name *)
Definition file_delete (fs : fsys) (cwd : path) (sardir : string) (fp : option ofile) : option (fsys + oserr) :=
  match fp with
  | Some f => Some (file_rm fs cwd sardir (of_name f))
  | None => None
  end.

(** fileio.go:157-170 FileMetaData (the members the code uses) *)
Record filemeta := {
  fm_node : node; fm_isdir : bool; fm_isregular : bool; fm_ispipe : bool; fm_islink : bool
}.
(** fileio.go:173-208 FileMeta: None is the error return.  Any error of Lstat other
    than "does not exist" leaves info nil, and info.Mode() panics (line 184); a
    dangling link leaves origstat nil, and IsDir() panics (line 193). *)
Definition file_meta (fs : fsys) (cwd : path) (sardir fname : string) : outcome (option filemeta) :=
  match os_lstat fs cwd (full sardir fname) with
  | inr ENOENT => Ret None
  | inr _ => Panic
  | inl n =>
      match n_kind n with
      | KLink t =>
          match os_lstat fs cwd t with
          | inr _ => Panic
          | inl o => Ret (Some {| fm_node := n; fm_isdir := is_dir o; fm_isregular := false;
                                  fm_ispipe := false; fm_islink := true |})
          end
      | _ => Ret (Some {| fm_node := n; fm_isdir := is_dir n; fm_isregular := is_regular n;
                          fm_ispipe := is_pipe n; fm_islink := false |})
      end
  end.

(** ** checksum.go *)

(** The hash functions of the Go standard library, as oracles
    (called in fileio/fileio.go:157-208 and metadata/metadata.go:46-109) *)
Record hashes := { hx_crc32 : list byte -> list byte; hx_md5 : list byte -> list byte; hx_sha1 : list byte -> list byte }.

(** checksum.go:36-84 Checksum: the checksum, or None on error *)
Definition checksum (H : hashes) (now : gotime) (fs : fsys) (cwd : path) (sardir csumtype fname : string)
  : option (list byte) :=
  let o := file_open now false fs cwd sardir fname "put" in
  if or_err o then None
  else
    match or_fp o with
    | None => None
    | Some fp =>
        if String.eqb csumtype "none" then Some []
        else
          let h := if String.eqb csumtype "crc32" then Some (hx_crc32 H)
                   else if String.eqb csumtype "md5" then Some (hx_md5 H)
                   else if String.eqb csumtype "sha1" then Some (hx_sha1 H)
                   else None in
          match h with
          | None => None
          | Some h =>
              match content_of fs (of_path fp) with     (* io.Copy of a directory fails *)
              | None => None
              | Some c =>
                  let csum := h c in
                  let bsize := sf_value sar "csumlen" csumtype in
                  if (bsize <? 0)%Z then None
                  else if negb (bsize * 4 =? Z.of_nat (length csum))%Z then None
                  else Some csum
              end
          end
    end.
