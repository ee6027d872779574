(** * Specification vocabulary for files *)

From Verif Require Import GoBase Flags SpecFlags SpecWire Holes SpecHoles Timestamp Fileio.
Local Open Scope string_scope.
Local Open Scope N_scope.

(** ** Contents *)

(** The byte at position [i] of a file with content [c] after writing [buf] at
    [pos]: from the buffer where it was written, zero in a gap, else as before *)
Definition byte_after (c : list byte) (pos : nat) (buf : list byte) (i : nat) : option byte :=
  if Nat.leb (pos + length buf) i then nth_error c i
  else if Nat.leb pos i then nth_error buf (i - pos)
  else if Nat.ltb i (length c) then nth_error c i
  else Some (ascii_of_N 0).

(** ** Reassembly *)

(** A chunk: position and bytes.  It is true to the source if its bytes are those
    of the source at that position. *)
Definition chunk := (N * list byte)%type.
Definition true_chunk (src : list byte) (k : chunk) : Prop :=
  forall i, (i < length (snd k))%nat -> nth_error src (N.to_nat (fst k) + i) = nth_error (snd k) i.
(** Write the chunks one after the other *)
Fixpoint write_all (fs : fsys) (fp : option ofile) (l : list chunk) : option fsys :=
  match l with
  | [] => Some fs
  | (pos, buf) :: r => match file_write fs fp pos buf with
                       | Some (fs', _) => write_all fs' fp r
                       | None => None
                       end
  end.
(** The ranges they fill *)
Definition range_of (k : chunk) : Z * Z := (Z.of_N (fst k), (Z.of_N (fst k) + Z.of_nat (length (snd k)))%Z).

(** ** Paths *)

(** An ordinary name *)
Definition plain (c : string) : Prop :=
  c <> "" /\ c <> "." /\ c <> ".." /\ ~ In "/"%char (bytes_of c) /\ ~ In (ascii_of_N 0) (bytes_of c).
(** A directory tree: the root is a directory, and so is whatever something is in *)
Definition tree (fs : fsys) : Prop :=
  (exists r, fs_get [] fs = Some r /\ is_dir r = true) /\
  (forall p c n, fs_get (p ++ [c])%list fs = Some n -> plain c /\ exists d, fs_get p fs = Some d /\ is_dir d = true).
(** Absolute name of the directory with these components *)
Definition abs_name (comps : list string) : string := "/" ++ String.concat "/" comps.
(** The directory a sardir setting denotes *)
Definition sardir_is (fs : fsys) (cwd : path) (sardir : string) (d : path) : Prop :=
  has_nul sardir = false /\
  walk fs (if is_abs (sardir ++ "/") then [] else cwd) (split_on "/" sardir) = inl d /\
  exists n, fs_get d fs = Some n /\ is_dir n = true.
(** What the file system holds elsewhere is unchanged *)
Definition unchanged_except (p : path) (fs fs' : fsys) : Prop := forall q, q <> p -> fs_get q fs' = fs_get q fs.

(** The second look-up that opening makes: below sardir/sardir *)
Definition doubled_exists (fs : fsys) (cwd : path) (sardir fname : string) : bool :=
  file_exists fs cwd sardir (sardir ++ "/" ++ fname).
