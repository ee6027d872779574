(** * Specification vocabulary for metadata frames *)

From Verif Require Import GoBase Flags SpecFlags SpecWire Timestamp SpecTime SpecFrames Fileio Dirent SpecDirent Metadata.
Local Open Scope string_scope.
Local Open Scope N_scope.

(** Header, session, checksum, directory entry *)
Definition meta_wire (h s : N) (csum entry : list byte) : list byte :=
  (wire 4 h ++ wire 4 s ++ csum ++ entry)%list.

(** The checksum length is announced in 32-bit words *)
Definition csum_bytes (h : N) : nat := (4 * N.to_nat (hd_csumlen h))%nat.

(** Verdict on bytes decoded as metadata *)
Definition meta_verdict (f : list byte) : verdict :=
  if Nat.ltb (length f) 8 then Reject
  else
    let n := csum_bytes (number_at f 0 4) in
    if Nat.ltb (length f) (8 + n) then Crash else dirent_verdict (skipn (8 + n) f).

(** ** Building *)
Definition meta_item_verdict (T : tables) (p : string * string) : verdict :=
  let (f, v) := p in
  if is_in f ["descriptor"; "progress"; "transfer"; "reliability"; "csumtype"] then setting_verdict T f v else Reject.
(** The checksum type sets the checksum length of the same name *)
Definition meta_settings (p : string * string) : list (string * string) :=
  let (f, v) := p in if String.eqb f "csumtype" then [(f, v); ("csumlen", v)] else [(f, v)].
(** The checksum type asked for, empty if none is *)
Definition asked_csum (items : list (string * string)) : string :=
  match last_setting items "csumtype" with Some v => v | None => "" end.

(** Is the node what the transfer flag says: a file, a directory, or for a stream
    without checksum a named pipe?  Bundles are not supported. *)
Definition node_verdict (h : N) (n : node) : verdict :=
  match hd_transfer h with
  | 0 => if is_regular n then Accept else Reject
  | 1 => if is_dir n then Accept else Reject
  | 2 => Reject
  | _ => if is_pipe n then match hd_csumtype h with 0 => Accept | 1 | 2 | 3 => Reject | _ => Kill end else Reject
  end.

(** The directory-entry header: start flag, the kind of the node, and a
    descriptor for its size *)
Definition node_property (n : node) : N := if is_regular n then 0 else if is_dir n then 1 else 2.
Definition size_descriptor (s : N) : N :=
  if s <? 2 ^ 16 - 1 then 0 else if s <? 2 ^ 32 - 1 then 1 else if s <? 2 ^ 64 - 1 then 2 else 3.
Definition entry_header (n : node) : N :=
  0x8000 + 0x100 * node_property n + 0x40 * size_descriptor (node_size n mod 2 ^ 64).

(** What the operating system says about the name in the working directory *)
Definition here (E : env) (name : string) : node + oserr := os_lstat (e_fs E) (e_cwd E) name.
