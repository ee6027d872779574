(** * Specification vocabulary for directory entries *)

From Verif Require Import GoBase Flags SpecFlags SpecWire Timestamp SpecTime SpecFrames SpecRequest Fileio Dirent.
Local Open Scope string_scope.
Local Open Scope N_scope.

(** ** Fields of the 16-bit header *)
Definition dh_property (h : N) : N := bit_field 16 6 2 h.
Definition dh_descriptor (h : N) : N := bit_field 16 8 2 h.

(** Header, size, modification time, creation time, path, one zero byte *)
Definition dirent_wire (h : N) (w : nat) (size mtime ctime : N) (path : string) : list byte :=
  (wire 2 h ++ wire w size ++ wire 4 mtime ++ wire 4 ctime ++ bytes_of path ++ [ascii_of_N 0])%list.

(** The sizes each width accepts: 16 bits in two bytes, 32 bits in four bytes and
    (this is the defect) only 32 bits in eight bytes *)
Definition size_limit (w : nat) : N := match w with 2%nat => 2 ^ 16 | _ => 2 ^ 32 end.

(** A timestamp in seconds since 2000 *)
Definition y2k (secs : N) : timestamp :=
  {| t_header := 5; t_secs := secs; t_nsecs := 0; t_local := ""; t_ttype := "epoch2000_32" |}.

(** Verdict on bytes decoded as a directory entry *)
Definition dirent_verdict (f : list byte) : verdict :=
  if Nat.ltb (length f) 12 then Reject
  else match descriptor_width (dh_descriptor (number_at f 0 2)) with
       | None => Reject
       | Some w => if Nat.ltb (length f) (2 + w + 8) then Crash else Accept
       end.

(** The entry in bytes with a [w]-byte size *)
Definition dirent_at (f : list byte) (w : nat) : dirent :=
  {| de_header := number_at f 0 2; de_size := number_at f 2 w;
     de_mtime := y2k (number_at f (2 + w) 4); de_ctime := y2k (number_at f (2 + w + 4) 4);
     de_path := string_of (latin1_utf8 (before_zero (skipn (2 + w + 8) f))) |}.

(** ** Building *)

(** The directory flag [f] of header [h] has the value named [v] *)
Definition dreads (T : tables) (h : N) (f v : string) : Prop :=
  exists fl n, lookup f (t_dirent T) = Some fl /\ lookup v (f_opts fl) = Some n /\
               bit_field 16 (f_msb fl) (f_len fl) h = n.
(** [h'] is [h] with exactly the given settings made; the last one of a flag counts *)
Definition dset_exactly (T : tables) (h h' : N) (l : list (string * string)) : Prop :=
  h' < 2 ^ 16 /\
  (forall f v, last_setting l f = Some v -> dreads T h' f v) /\
  (forall i, (forall f v fl, In (f, v) l -> lookup f (t_dirent T) = Some fl ->
                             ~ in_field 16 (f_msb fl) (f_len fl) i) ->
             N.testbit h' i = N.testbit h i).
Definition dknown_option (T : tables) (f v : string) : bool :=
  match lookup f (t_dirent T) with
  | Some fl => match lookup v (f_opts fl) with Some _ => true | None => false end
  | None => false
  end.
Definition dirent_item_verdict (T : tables) (p : string * string) : verdict :=
  let (f, v) := p in
  if is_in f ["descriptor"; "property"] then if dknown_option T f v then Accept else Kill else Reject.

(** Seconds since 2000 of an instant, if they fit 32 bits *)
Definition y2k_time (t : gotime) : Prop := (0 <= unix_secs t - 946684800 < 2 ^ 32)%Z.
Definition y2k_of (t : gotime) : timestamp := y2k (Z.to_N (unix_secs t - 946684800)).

(** What the operating system says about sardir/path (links are not followed) *)
Definition local_node (E : env) (path : string) : node + oserr :=
  os_lstat (e_fs E) (e_cwd E) (e_sardir E ++ "/" ++ path).

Definition is_link (n : node) : bool := match n_kind n with KLink _ => true | _ => false end.
