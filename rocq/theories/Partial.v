(** * Model of reading and writing a file when the system does less than it is asked to, and when two calls use one open file at once

    Fileio.v and Handles.v assume that the system reads and writes all that is asked for.  Here it answers each system call: it may
    do a part, or fail (a full disk, an error of the device).  One regular file and one *os.File of it; what other handles and
    names do is in Handles.v. *)

From Verif Require Import GoBase Fileio.
Local Open Scope string_scope.
Local Open Scope N_scope.

(** The answer to one system call: [k] bytes at most, or an error (fp.Read and fp.Write in fileio/fileio.go:109, 126) *)
Inductive answer := Did (k : nat) | Failed.
(** *os.File: the content of the file, the offset, the mode, whether it is open (fileio/fileio.go:30-132) *)
Record pfile := { pf_content : list byte; pf_pos : nat; pf_write : bool; pf_open : bool }.
(** Content and offset changed (fp.Seek, fp.Read and fp.Write in fileio/fileio.go:77-132) *)
Definition pf_now (f : pfile) (c : list byte) (pos : nat) : pfile :=
  {| pf_content := c; pf_pos := pos; pf_write := pf_write f; pf_open := pf_open f |}.

(** os.File.Write (in fileio/fileio.go:126): write(2) again and again until all is written, until an error, or until nothing is
    written (io.ErrUnexpectedEOF); [n] bytes are written already.  When the answers are at their end all the rest is written.
    The content, the number of bytes, whether there was an error. *)
Fixpoint os_write (answers : list answer) (c : list byte) (pos : nat) (buf : list byte) (n : nat) : list byte * (nat * bool) :=
  match answers with
  | [] => (write_content c pos buf, ((n + List.length buf)%nat, false))
  | Failed :: _ => (c, (n, true))
  | Did k :: r =>
      let done := firstn k buf in
      let c1 := write_content c pos done in
      match skipn k buf, done with
      | [], _ => (c1, ((n + List.length done)%nat, false))
      | _, [] => (c, (n, true))
      | rest, _ => os_write r c1 (pos + List.length done) rest (n + List.length done)
      end
  end.
(** os.File.Read (in fileio/fileio.go:109): one read(2), which gives at least one byte unless the offset is at the end; None is an
    error, io.EOF at the end.  Asked for nothing, it does not even ask the system. *)
Definition os_read (a : answer) (c : list byte) (pos blen : nat) : option (list byte) :=
  if Nat.eqb blen 0 then Some []
  else match a with
       | Failed => None
       | Did k => match firstn (Nat.max 1 k) (firstn blen (skipn pos c)) with [] => None | l => Some l end
       end.

(** fileio.go:77-95 FileSeek; None on error: a position that is negative as an int64, or a closed file *)
Definition p_seek (f : pfile) (pos : N) : option pfile :=
  if (i64_of_N pos <? 0)%Z then None
  else if pf_open f then Some (pf_now f (pf_content f) (Z.to_nat (i64_of_N pos)))
  else None.
(** fileio.go:109-113, the second half of FileRead *)
Definition p_read_on (a : answer) (f : pfile) (blen : nat) : pfile * option (list byte) :=
  match os_read a (pf_content f) (pf_pos f) blen with
  | None => (f, None)
  | Some got => (pf_now f (pf_content f) (pf_pos f + List.length got), Some got)
  end.
(** fileio.go:97-115 FileRead: the bytes, or None on error; make([]byte, blen) panics for blen < 0 *)
Definition p_fileread (a : answer) (f : pfile) (pos : N) (blen : Z) : outcome (pfile * option (list byte)) :=
  if (blen <? 0)%Z then Panic
  else match p_seek f pos with
       | None => Ret (f, None)
       | Some f => Ret (p_read_on a f (Z.to_nat blen))
       end.
(** fileio.go:126-131, the second half of FileWrite: the number of bytes and whether there was an error *)
Definition p_write_on (answers : list answer) (f : pfile) (buf : list byte) : pfile * (nat * bool) :=
  if pf_write f then
    let '(c, (n, e)) := os_write answers (pf_content f) (pf_pos f) buf 0 in (pf_now f c (pf_pos f + n), (n, e))
  else (f, (0%nat, true)).
(** fileio.go:118-132 FileWrite *)
Definition p_filewrite (answers : list answer) (f : pfile) (pos : N) (buf : list byte) : pfile * (nat * bool) :=
  match p_seek f pos with
  | None => (f, (0%nat, true))
  | Some f => p_write_on answers f buf
  end.

(** ** Two calls at once *)
(** A call (fileio/fileio.go:97-132) *)
Inductive pcall := CRead (pos : N) (blen : nat) | CWrite (pos : N) (buf : list byte).
(** What it returns (fileio/fileio.go:97-132) *)
Inductive pres := RGot (b : option (list byte)) | RPut (n : nat) (e : bool).
(** Where a goroutine is in its call: before FileSeek, behind it, at its end (fileio/fileio.go:105-109, 122-126) *)
Inductive phase := Before | Sought | Ended (r : pres).
(** The first half of a call (fileio/fileio.go:105-107, 122-124) *)
Definition call_seek (f : pfile) (k : pcall) : pfile * phase :=
  match k with
  | CRead pos _ => match p_seek f pos with Some f => (f, Sought) | None => (f, Ended (RGot None)) end
  | CWrite pos _ => match p_seek f pos with Some f => (f, Sought) | None => (f, Ended (RPut 0 true)) end
  end.
(** The second half (fileio/fileio.go:109-114, 126-131), in one system call that does all it can *)
Definition call_go (f : pfile) (k : pcall) : pfile * phase :=
  match k with
  | CRead _ blen => let (f, b) := p_read_on (Did blen) f blen in (f, Ended (RGot b))
  | CWrite _ buf => let '(f, (n, e)) := p_write_on [] f buf in (f, Ended (RPut n e))
  end.
(** A goroutine moves: from one system call to the next (fileio/fileio.go:97-132) *)
Definition call_step (f : pfile) (k : pcall) (p : phase) : pfile * phase :=
  match p with
  | Before => call_seek f k
  | Sought => call_go f k
  | Ended r => (f, Ended r)
  end.
(** Two goroutines with one *os.File; [sched] says whose turn it is (fileio/fileio.go:97-132) *)
Fixpoint two_calls (x y : pcall) (sched : list bool) (s : pfile * (phase * phase)) : pfile * (phase * phase) :=
  match sched with
  | [] => s
  | b :: r =>
      let '(f, (p, q)) := s in
      if b then (let (f, p) := call_step f x p in two_calls x y r (f, (p, q)))
      else (let (f, q) := call_step f y q in two_calls x y r (f, (p, q)))
  end.
